(** The parts of the [http] 0.2 and [url] 2.4 crates the crate uses: header
    names, header values, header maps, methods, URLs and form-urlencoded query
    pairs.  Dependencies, modelled from their documentation and sources. *)
From Verif Require Export Str Utf8 Sfv.

(** ** Header names *)

(** [HeaderName::from_bytes]/[from_str] (src/signature_component.rs:60,97):
    1..65535 token characters; the result is lower case. *)
Definition hname_parse (s : str) : option str :=
  if negb (match s with [] => true | _ => false end)
     && (N.of_nat (List.length s) <=? 65535)%N && forallb is_tchar s
  then Some (map to_lower s) else None.

(** What a [HeaderName] value always satisfies (its type invariant). *)
Definition hname_ok (n : str) : bool :=
  negb (match n with [] => true | _ => false end)
  && (N.of_nat (List.length n) <=? 65535)%N
  && forallb (fun c => is_tchar c && negb (is_upper c)) n.

(** The header names the crate uses: [DATE], [HOST] of http, and
    src/signature_component.rs:112-138. *)
Definition h_date : str := $"date".
Definition h_host : str := $"host".
Definition h_digest : str := $"digest".
Definition h_content_digest : str := $"content-digest".
Definition h_signature : str := $"signature".
Definition h_signature_input : str := $"signature-input".

(** ** Header values *)

(** [HeaderValue::from_str]/[TryFrom<String>]: bytes 32..=255 except 127, and tab
    (src/signing.rs:385,394,406,470,482). *)
Definition hvalue_byte (c : ascii) : bool :=
  ((32 <=? code c)%N && negb (code c =? 127)%N) || (code c =? 9)%N.
Definition hvalue_ok (v : str) : bool := forallb hvalue_byte v.
Definition hvalue_parse (s : str) : option str := if hvalue_ok s then Some s else None.

(** [HeaderValue::to_str]: only visible ASCII (32..=126) and tab
    (src/reqwest_impls.rs:11, mock_request.rs:254). *)
Definition hvalue_visible (v : str) : bool := forallb (fun c => is_visible c || (code c =? 9)%N) v.
Definition hvalue_to_str (v : str) : option str := if hvalue_visible v then Some v else None.

(** ** Header maps

    [HeaderMap<HeaderValue>] as the list of its (name, value) pairs in iteration
    order; a name may occur several times ([append]). *)
Definition header_map := list (str * str).

(** [HeaderMap::get]: the first value of the name. *)
Fixpoint hm_get (m : header_map) (n : str) : option str :=
  match m with
  | [] => None
  | (k, v) :: m' => if str_eqb k n then Some v else hm_get m' n
  end.

(** [HeaderMap::remove], and what [insert] does to the further values of the name. *)
Definition hm_remove (m : header_map) (n : str) : header_map :=
  filter (fun kv => negb (str_eqb (fst kv) n)) m.

(** [HeaderMap::insert]: replaces all values of the name (at the position of the
    first), or adds the name at the end. *)
Fixpoint hm_insert (m : header_map) (n v : str) : header_map :=
  match m with
  | [] => [(n, v)]
  | (k, w) :: m' => if str_eqb k n then (n, v) :: hm_remove m' n else (k, w) :: hm_insert m' n v
  end.

(** [HeaderMap::get_all]. *)
Definition hm_get_all (m : header_map) (n : str) : list str :=
  map snd (filter (fun kv => str_eqb (fst kv) n) m).

(** ** Methods: [http::Method], its text; parsing accepts any non-empty token. *)
Definition method_ok (m : str) : bool :=
  negb (match m with [] => true | _ => false end) && forallb is_tchar m.
Definition method_parse (s : str) : option str := if method_ok s then Some s else None.

(** ** URLs

    A parsed [url::Url] by its components; [url_to_string] is [Url::to_string].
    URL parsing is not modelled here. *)
Record url := Url {
  u_scheme : str;
  u_has_authority : bool;          (* "//" present in the serialization *)
  u_username : str;
  u_password : option str;
  u_host : option str;             (* [Url::host_str] *)
  u_port : option N;               (* [Url::port]: absent when it is the scheme's default *)
  u_path : str;
  u_query : option str;
  u_fragment : option str
}.

(** An optional part of a URL with its delimiter. *)
Definition opt_str (pre : str) (o : option str) : str := match o with Some s => pre ++ s | None => [] end.

(** "user:password@". *)
Definition url_userinfo (u : url) : str :=
  match u_username u, u_password u with
  | [], None => []
  | n, p => n ++ opt_str $":" p ++ $"@"
  end.

(** [Url::as_str], [Url::to_string] (src/derived.rs:99-128).  Without an authority, "/." keeps
    a path that begins with "//" from being read as one. *)
Definition url_to_string (u : url) : str :=
  u_scheme u ++ $":"
  ++ (if u_has_authority u
      then $"//" ++ url_userinfo u ++ opt_str [] (u_host u)
           ++ match u_port u with Some p => $":" ++ dec_of_N p | None => [] end
      else if starts_with $"//" (u_path u) then $"/." else [])
  ++ u_path u ++ opt_str $"?" (u_query u) ++ opt_str $"#" (u_fragment u).

(** ** form_urlencoded::parse, i.e. [Url::query_pairs] *)

(** Hex digit value. *)
Definition hex_val (c : ascii) : option N :=
  if is_digit c then Some (code c - 48)%N
  else if in_range 97 102 c then Some (code c - 87)%N
  else if in_range 65 70 c then Some (code c - 55)%N
  else None.

(** [percent_decode] (an incomplete or non-hex escape is kept literally). *)
Fixpoint percent_decode (s : str) : str :=
  match s with
  | [] => []
  | c :: s1 =>
      if Ascii.eqb c "%" then
        match s1 with
        | h :: l :: s2 =>
            match hex_val h, hex_val l with
            | Some x, Some y => ascii_of_N (x * 16 + y) :: percent_decode s2
            | _, _ => c :: percent_decode s1
            end
        | _ => c :: percent_decode s1
        end
      else c :: percent_decode s1
  end.

(** form_urlencoded's [decode]: '+' to space, percent-decode, lossy UTF-8. *)
Definition form_decode (s : str) : str :=
  from_utf8_lossy (percent_decode (map (fun c => if Ascii.eqb c "+" then " "%char else c) s)).

(** form_urlencoded's [Parse] iterator: split at '&', skip empty pieces, split
    each at its first '='. *)
Definition form_pair (piece : str) : str * str :=
  match split_once "=" piece with
  | Some (k, v) => (form_decode k, form_decode v)
  | None => (form_decode piece, form_decode [])
  end.
Definition form_parse (q : str) : list (str * str) :=
  map form_pair (filter (fun p => negb (match p with [] => true | _ => false end)) (split "&" q)).

(** [Url::query_pairs]. *)
Definition query_pairs (u : url) : list (str * str) :=
  form_parse (match u_query u with Some q => q | None => [] end).
