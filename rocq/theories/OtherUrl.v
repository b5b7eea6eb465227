(** The URL parser of the [url] crate, version 2.4, for the schemes that are not special
    (src/parser.rs of that crate: [parse_non_special]; src/host.rs: [Host::parse_opaque]),
    as called through [str::parse] at httpsig-validator/src/mock_request.rs:82, 85, 194 and
    202.  The parser of "file" URLs stays an argument.  Syntax violations that are only
    logged, and texts longer than 2^32 bytes, are not modelled. *)
From Verif Require Export UrlParse HostParse.

(** [QUERY]: what is encoded in the query of a URL whose scheme is not special.
    Used at mock_request.rs:82, 194, 202. *)
Definition enc_other_query (c : ascii) : bool :=
  enc_control c || Ascii.eqb c " " || Ascii.eqb c """" || Ascii.eqb c "#" || Ascii.eqb c "<" || Ascii.eqb c ">".
(** [parse_query_and_fragment].  Used at mock_request.rs:82, 194, 202. *)
Definition parse_other_query (s : str) : option str * option str :=
  match s with
  | [] => (None, None)
  | c :: s' =>
      let not_hash := fun d => negb (Ascii.eqb d "#") in
      let fragment := fun t => match t with [] => None | _ :: t' => Some (percent_encode enc_fragment t') end in
      if Ascii.eqb c "?" then (Some (percent_encode enc_other_query (take_while not_hash s')), fragment (drop_while not_hash s'))
      else (None, fragment s)
  end.

(** [parse_path]: segments end at "/" only.  Used at mock_request.rs:82, 194, 202. *)
Fixpoint split_fwd (s : str) : list str :=
  match s with
  | [] => [[]]
  | c :: s' =>
      if Ascii.eqb c "/" then [] :: split_fwd s'
      else match split_fwd s' with p :: ps => (c :: p) :: ps | [] => [[c]] end
  end.
(** [parse_path_start]: the path after an authority can be empty.
    Used at mock_request.rs:82, 194, 202. *)
Definition parse_other_path (s : str) : str :=
  match s with
  | [] => []
  | c :: s' => path_loop [] (split_fwd (if Ascii.eqb c "/" then s' else s))
  end.

(** [Host::parse_opaque] and [to_string]: an IPv6 address between brackets, or any text
    without some characters, whose control characters are encoded.
    Used at mock_request.rs:82, 194, 202. *)
Definition invalid_opaque_char (c : ascii) : bool :=
  existsb (N.eqb (code c)) [0; 9; 10; 13]%N || existsb (Ascii.eqb c) $" #/:<>?@[\]^|".
Definition opaque_host : host_parser := fun s =>
  if starts_with $"[" s then
    match rev s with
    | "]"%char :: t => match t with [] => None | _ => option_map (fun p => $"[" ++ ipv6_text p ++ $"]") (parse_ipv6addr (skipn 1 (rev t))) end
    | _ => None
    end
  else if existsb invalid_opaque_char s then None
  else Some (percent_encode enc_control s).

(** [parse_port]: the digits, and what follows them, which is nothing or begins with a
    backslash.  Used at mock_request.rs:82, 194, 202. *)
Definition parse_other_port (scheme p : str) : option (option N * str) :=
  match p with
  | [] => Some (None, [])
  | c :: p' =>
      let after := drop_while is_digit p' in
      let more := match after with [] => true | d :: _ => Ascii.eqb d "\" end in
      if more then option_map (fun o => (o, after)) (parse_port scheme (c :: take_while is_digit p')) else None
  end.

(** [after_double_slash] with [parse_userinfo] and [parse_host_and_port].  [rest]: the path;
    [ends]: nothing follows the path.
    Used at mock_request.rs:82, 194, 202. *)
Definition ends_other_authority (c : ascii) : bool := Ascii.eqb c "/" || ends_path c.
Definition parse_other_authority (scheme s : str) (ends : bool) (query fragment : option str) : result url url_error :=
  let authority := take_while (fun c => negb (ends_other_authority c)) s in
  let rest := drop_while (fun c => negb (ends_other_authority c)) s in
  let '(name, password, hostport) := parse_userinfo authority in
  if str_eqb authority $"@" && negb (match rest with [] => ends | _ => false end) then Err UrlOther
  else
    let '(h, p) := split_host false hostport in
    match h with
    | [] =>
        match p, name, password with
        | [], [], None => Ok (Url scheme true [] None None None (parse_other_path rest) query fragment)
        | _, _, _ => Err UrlOther
        end
    | _ =>
        match opaque_host h, parse_other_port scheme p with
        | Some host, Some (port, more) =>
            Ok (Url scheme true name password (Some host) port (parse_other_path (more ++ rest)) query fragment)
        | _, _ => Err UrlOther
        end
    end.

(** [parse_non_special]: after "//" an authority, after one slash a path, else a text that
    is no path ("cannot be a base").  [fp] is the parser of "file" URLs.
    Used at mock_request.rs:82, 194, 202. *)
Definition parse_other (fp : str -> result url url_error) : scheme_parser := fun scheme s =>
  if str_eqb scheme $"file" then fp s
  else
    let before := take_while (fun c => negb (ends_path c)) s in
    let after := drop_while (fun c => negb (ends_path c)) s in
    let '(query, fragment) := parse_other_query after in
    if starts_with $"//" before then
      parse_other_authority scheme (skipn 2 before) (match after with [] => true | _ => false end) query fragment
    else if starts_with $"/" before then
      Ok (Url scheme false [] None None None (path_loop [] (split_fwd (skipn 1 before))) query fragment)
    else Ok (Url scheme false [] None None None (percent_encode enc_control before) query fragment).
