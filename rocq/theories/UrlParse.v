(** The URL parser of the [url] crate, version 2.4 (src/parser.rs of that crate, without a
    base URL), as called through [str::parse] at httpsig-validator/src/mock_request.rs:82,
    85, 194 and 202.  Modelled for the special schemes other than "file"; the parser of host
    names ([Host::parse]: IDNA, IPv4, IPv6) and the parser of the other schemes are
    arguments.  Syntax violations that are only logged, and texts longer than 2^32 bytes, are
    not modelled. *)
From Verif Require Export Mock.

(** [Host::parse] followed by [to_string]; [None] is an error.
    Used at mock_request.rs:82, 194, 202. *)
Definition host_parser := str -> option str.
(** The parser of URLs with another scheme: the scheme, and the text after the colon.
    Used at mock_request.rs:82, 194, 202. *)
Definition scheme_parser := str -> str -> result url url_error.

(** [SchemeType::from] and [default_port]: the special schemes other than "file".
    Used at mock_request.rs:82, 194, 202. *)
Definition default_port (scheme : str) : option N :=
  if str_eqb scheme $"http" || str_eqb scheme $"ws" then Some 80%N
  else if str_eqb scheme $"https" || str_eqb scheme $"wss" then Some 443%N
  else if str_eqb scheme $"ftp" then Some 21%N
  else None.

(** [Input::new]: C0 controls and spaces are trimmed, tabs and line breaks dropped
    everywhere (by [Input::next]).
    Used at mock_request.rs:82, 194, 202. *)
Definition c0_or_space (c : ascii) : bool := (code c <=? 32)%N.
Definition tab_or_newline (c : ascii) : bool := (code c =? 9)%N || (code c =? 10)%N || (code c =? 13)%N.
Definition clean_input (s : str) : str :=
  filter (fun c => negb (tab_or_newline c)) (rev (drop_while c0_or_space (rev (drop_while c0_or_space s)))).

(** [parse_scheme]: a letter, then letters, digits, "+", "-", "." up to a colon.
    Used at mock_request.rs:82, 194, 202. *)
Definition scheme_char (c : ascii) : bool :=
  is_alpha c || is_digit c || Ascii.eqb c "+" || Ascii.eqb c "-" || Ascii.eqb c ".".
Definition parse_scheme (s : str) : option (str * str) :=
  match s with
  | c :: _ =>
      if is_alpha c then
        match drop_while scheme_char s with
        | d :: rest => if Ascii.eqb d ":" then Some (map to_lower (take_while scheme_char s), rest) else None
        | [] => None
        end
      else None
  | [] => None
  end.

(** Percent-encode sets: [FRAGMENT], [PATH], [USERINFO], [SPECIAL_QUERY]; bytes outside ASCII
    are always encoded.
    Used at mock_request.rs:82, 194, 202. *)
Definition enc_control (c : ascii) : bool := (code c <? 32)%N || (127 <=? code c)%N.
Definition enc_fragment (c : ascii) : bool :=
  enc_control c || Ascii.eqb c " " || Ascii.eqb c """" || Ascii.eqb c "<" || Ascii.eqb c ">" || Ascii.eqb c "`".
Definition enc_path (c : ascii) : bool :=
  enc_fragment c || Ascii.eqb c "#" || Ascii.eqb c "?" || Ascii.eqb c "{" || Ascii.eqb c "}".
Definition enc_userinfo (c : ascii) : bool :=
  enc_path c || Ascii.eqb c "/" || Ascii.eqb c ":" || Ascii.eqb c ";" || Ascii.eqb c "=" || Ascii.eqb c "@"
  || Ascii.eqb c "[" || Ascii.eqb c "\" || Ascii.eqb c "]" || Ascii.eqb c "^" || Ascii.eqb c "|".
Definition enc_query (c : ascii) : bool :=
  enc_control c || Ascii.eqb c " " || Ascii.eqb c """" || Ascii.eqb c "#" || Ascii.eqb c "<" || Ascii.eqb c ">" || Ascii.eqb c "'".
(** [utf8_percent_encode].
    Used at mock_request.rs:82, 194, 202. *)
Definition hex_char (n : N) : ascii := ascii_of_N (if (n <? 10)%N then 48 + n else 55 + n).
Definition encode_byte (set : ascii -> bool) (c : ascii) : str :=
  if set c then ["%"%char; hex_char (code c / 16); hex_char (code c mod 16)] else [c].
Definition percent_encode (set : ascii -> bool) (s : str) : str := List.concat (map (encode_byte set) s).

(** The end of the authority.
    Used at mock_request.rs:82, 194, 202. *)
Definition url_slash (c : ascii) : bool := Ascii.eqb c "/" || Ascii.eqb c "\".
Definition ends_path (c : ascii) : bool := Ascii.eqb c "?" || Ascii.eqb c "#".
Definition ends_authority (c : ascii) : bool := url_slash c || ends_path c.

(** [parse_userinfo]: up to the last "@" of the authority; the password starts after the
    first colon, and an empty one does not count.
    Used at mock_request.rs:82, 194, 202. *)
Fixpoint split_last (c : ascii) (s : str) : option (str * str) :=
  match s with
  | [] => None
  | x :: s' =>
      match split_last c s' with
      | Some (a, b) => Some (x :: a, b)
      | None => if Ascii.eqb x c then Some ([], s') else None
      end
  end.
Definition parse_userinfo (authority : str) : str * option str * str :=
  match split_last "@" authority with
  | None => ([], None, authority)
  | Some (ui, rest) =>
      match split_once ":" ui with
      | None => (percent_encode enc_userinfo ui, None, rest)
      | Some (n, []) => (percent_encode enc_userinfo n, None, rest)
      | Some (n, p) => (percent_encode enc_userinfo n, Some (percent_encode enc_userinfo p), rest)
      end
  end.

(** [parse_host]: up to a colon that is not between square brackets.
    Used at mock_request.rs:82, 194, 202. *)
Fixpoint split_host (inside : bool) (s : str) : str * str :=
  match s with
  | [] => ([], [])
  | c :: s' =>
      if Ascii.eqb c ":" && negb inside then ([], s)
      else let i := if Ascii.eqb c "[" then true else if Ascii.eqb c "]" then false else inside in
           let '(h, r) := split_host i s' in (c :: h, r)
  end.

(** [parse_port] on the rest of the authority: digits only, at most 65535; the default port
    of the scheme does not count.
    Used at mock_request.rs:82, 194, 202. *)
Fixpoint digits_value (acc : N) (s : str) : option N :=
  match s with
  | [] => Some acc
  | c :: s' => if is_digit c then digits_value (acc * 10 + (code c - 48)) s' else None
  end.
Definition parse_port (scheme : str) (s : str) : option (option N) :=
  match s with
  | [] => Some None
  | _ :: [] => Some None
  | _ :: ds =>
      match digits_value 0 ds with
      | Some n => if (65535 <? n)%N then None
                  else Some (match default_port scheme with Some d => if (n =? d)%N then None else Some n | None => Some n end)
      | None => None
      end
  end.

(** [parse_path]: the segments end at "/" or "\"; dot segments, also in percent-encoded
    form, are resolved.  [acc]: the segments kept so far, last first.  ".." keeps a segment
    that looks like a Windows drive letter ([last_slash_can_be_removed]).
    Used at mock_request.rs:82, 194, 202. *)
Fixpoint split_slash (s : str) : list str :=
  match s with
  | [] => [[]]
  | c :: s' =>
      if url_slash c then [] :: split_slash s'
      else match split_slash s' with p :: ps => (c :: p) :: ps | [] => [[c]] end
  end.
Definition single_dot (s : str) : bool := str_eqb s $"." || str_eqb s $"%2e" || str_eqb s $"%2E".
Definition double_dot (s : str) : bool :=
  existsb (str_eqb s) [$".."; $"%2e%2e"; $"%2e%2E"; $"%2E%2e"; $"%2E%2E"; $"%2e."; $"%2E."; $".%2e"; $".%2E"].
Definition drive_letter (s : str) : bool :=
  match s with [a; b] => is_alpha a && (Ascii.eqb b ":" || Ascii.eqb b "|") | _ => false end.
Definition shorten (acc : list str) : list str :=
  match acc with
  | [] => []
  | s :: acc' => if drive_letter s then acc else acc'
  end.
Definition path_join (acc : list str) (last : str) : str :=
  $"/" ++ List.concat (map (fun s => s ++ $"/") (rev acc)) ++ last.
Fixpoint path_loop (acc : list str) (segs : list str) : str :=
  match segs with
  | [] => path_join acc []
  | x :: segs' =>
      let e := percent_encode enc_path x in
      if double_dot e then path_loop (shorten acc) segs'
      else if single_dot e then path_loop acc segs'
      else match segs' with
           | [] => path_join acc e
           | _ => path_loop (e :: acc) segs'
           end
  end.
(** [parse_path_start] for a special scheme: the path is never empty.
    Used at mock_request.rs:82, 194, 202. *)
Definition parse_path (s : str) : str :=
  path_loop [] (split_slash (match s with c :: s' => if url_slash c then s' else s | [] => [] end)).

(** [parse_query_and_fragment].
    Used at mock_request.rs:82, 194, 202. *)
Definition parse_query (s : str) : option str * option str :=
  match s with
  | [] => (None, None)
  | c :: s' =>
      let not_hash := fun d => negb (Ascii.eqb d "#") in
      let fragment := fun t => match t with [] => None | _ :: t' => Some (percent_encode enc_fragment t') end in
      if Ascii.eqb c "?" then (Some (percent_encode enc_query (take_while not_hash s')), fragment (drop_while not_hash s'))
      else (None, fragment s)
  end.

(** [after_double_slash] and [with_query_and_fragment].
    Used at mock_request.rs:82, 194, 202. *)
Definition parse_special (hp : host_parser) (scheme s : str) : result url url_error :=
  let authority := take_while (fun c => negb (ends_authority c)) s in
  let rest := drop_while (fun c => negb (ends_authority c)) s in
  let '(name, password, hostport) := parse_userinfo authority in
  let '(h, p) := split_host false hostport in
  match h with
  | [] => Err UrlOther
  | _ =>
      match hp h, parse_port scheme p with
      | Some host, Some port =>
          let path := take_while (fun c => negb (ends_path c)) rest in
          let '(query, fragment) := parse_query (drop_while (fun c => negb (ends_path c)) rest) in
          Ok (Url scheme true name password (Some host) port (parse_path path) query fragment)
      | _, _ => Err UrlOther
      end
  end.

(** [parse_url] and [parse_with_scheme]: after a special scheme any number of slashes is
    skipped.
    Used at mock_request.rs:82, 194, 202. *)
Definition url_parse (hp : host_parser) (sp : scheme_parser) : url_parser := fun s =>
  match parse_scheme (clean_input s) with
  | None => Err RelativeUrlWithoutBase
  | Some (scheme, rest) =>
      match default_port scheme with
      | Some _ => parse_special hp scheme (drop_while url_slash rest)
      | None => sp scheme rest
      end
  end.
