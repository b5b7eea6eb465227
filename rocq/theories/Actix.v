(** src/actix_web_impls.rs: [ServiceRequest] of actix-web, feature "actix".  The file does not
    compile: it names a trait [Deriveable], implements [header] where the trait has [derive] and
    [has_component], uses [await] and [?] in a function that allows neither, and some arms have
    the wrong type.  This is its text with the smallest repairs: values of the wrong type are
    wrapped in [Some] (or turned into a text by [to_str]), [has_component] is [derive(..).is_some()]
    as in the other implementations, the chunks of the payload are known, and a chunk that is an
    error ends the reading with neither digest nor body. *)
From Verif Require Export Verifying.

(** [http::Uri], as far as lines 31-46 look at it: [scheme], [authority], [path], [query]. *)
Record uri := Uri { ur_scheme : option str; ur_authority : option str; ur_path : str; ur_query : option str }.

(** [Display for Uri], line 31. *)
Definition uri_to_string (u : uri) : str :=
  match ur_scheme u with Some s => s ++ $"://" | None => [] end
  ++ match ur_authority u with Some a => a | None => [] end
  ++ ur_path u
  ++ match ur_query u with Some q => $"?" ++ q | None => [] end.

(** The parts of a [ServiceRequest] the file touches; a chunk of the payload is bytes or an error. *)
Record actix := Actix { ax_method : str; ax_uri : uri; ax_headers : header_map; ax_payload : list (option str) }.

(** Lines 25-48 [derive_component]; the arms of lines 68-97 are the same. *)
Definition ax_derive_component (r : actix) (d : derived) : outcome (option str) :=
  do n <- dc_name d;
  Done (
    if str_eqb n AT_REQUEST_TARGET then Some (ax_method r ++ $" " ++ ur_path (ax_uri r))
    else if str_eqb n AT_METHOD then Some (ax_method r)
    else if str_eqb n AT_TARGET_URI then Some (uri_to_string (ax_uri r))
    else if str_eqb n AT_AUTHORITY then ur_authority (ax_uri r)
    else if str_eqb n AT_SCHEME then ur_scheme (ax_uri r)
    else if str_eqb n AT_PATH then Some (ur_path (ax_uri r))
    else if str_eqb n AT_QUERY then option_map (fun q => $"?" ++ q) (ur_query (ax_uri r))
    else None).

(** Lines 60-67 [header]: a header by its first value, or a derived component. *)
Definition ax_derive (r : actix) (c : component) : outcome (option str) :=
  match c with
  | CHeader h => Done (opt_bind (hm_get (ax_headers r) h) hvalue_to_str)
  | CDerived d => ax_derive_component r d
  end.
Definition ax_has_component (r : actix) (c : component) : outcome bool :=
  do v <- ax_derive r c; Done (match v with Some _ => true | None => false end).

(** Lines 106-113: the payload is read to its end. *)
Fixpoint read_payload (chunks : list (option str)) (body : str) : option str :=
  match chunks with
  | [] => Some body
  | Some c :: l => read_payload l (body ++ c)
  | None :: _ => None
  end.

(** Lines 104-120 [complete_with_digest]: an empty body has no digest. *)
Definition ax_complete_with_digest (r : actix) (d : http_digest) : option str * option str :=
  match read_payload (ax_payload r) [] with
  | None => (None, None)
  | Some [] => (None, None)
  | Some body => (Some (dg_digest d body), Some body)
  end.

(** Lines 59-99, 101-122; line 121 [complete] keeps nothing. *)
Definition ax_rl : request_like actix := RequestLike actix ax_derive ax_has_component.
Definition ax_server : server_request_like actix (option str) :=
  ServerRequestLike actix (option str) ax_rl ax_complete_with_digest (fun _ => None).
