(** httpsig-validator/src/mock_request.rs: [MockRequest]. *)
From Verif Require Export Str Utf8 Http Component Canonicalize Signing Verifying.

(** [http::Version], lines 16-25 [version_try_from_string]. *)
Inductive version := HTTP_09 | HTTP_10 | HTTP_11 | HTTP_2 | HTTP_3.
Definition version_parse (s : str) : option version :=
  if str_eqb s $"HTTP/0.9" then Some HTTP_09
  else if str_eqb s $"HTTP/1.0" then Some HTTP_10
  else if str_eqb s $"HTTP/1.1" then Some HTTP_11
  else if str_eqb s $"HTTP/2.0" then Some HTTP_2
  else if str_eqb s $"HTTP/3.0" then Some HTTP_3
  else None.

(** Lines 33-40. *)
Record mock := MockReq {
  mr_version : version; mr_method : str; mr_url : url; mr_path : str;
  mr_headers : header_map; mr_body : option str
}.

(** ** Traits *)

(** Lines 22-24 of src/signing.rs: the default [host] is [None]; MockRequest does not
    override it (lines 265-272). *)
Definition mr_host (r : mock) : option str := None.

(** Lines 246-258 [derive] (with 239-244 [derive_component]): a header value that is
    not visible ASCII derives the empty string. *)
Definition mr_derive (r : mock) (c : component) : outcome (option str) :=
  match c with
  | CHeader h =>
      Done (option_map (fun v => match hvalue_to_str v with Some t => t | None => [] end)
              (hm_get (mr_headers r) h))
  | CDerived d => dc_derive d (mr_host r) (mr_method r) (mr_url r)
  end.

(** Lines 260-262 [has_component]. *)
Definition mr_has_component (r : mock) (c : component) : outcome bool :=
  do v <- mr_derive r c; Done (match v with Some _ => true | None => false end).

(** Lines 269-271 [set_header]. *)
Definition mr_set_header (r : mock) (h v : str) : mock :=
  MockReq (mr_version r) (mr_method r) (mr_url r) (mr_path r) (hm_insert (mr_headers r) h v) (mr_body r).

(** Lines 266-268 [compute_digest]. *)
Definition mr_compute_digest (r : mock) (d : http_digest) : mock * option str :=
  (r, option_map (dg_digest d) (mr_body r)).

(** Lines 277-285 [complete_with_digest], [complete]. *)
Definition mr_complete_with_digest (r : mock) (d : http_digest) : option str * unit :=
  match mr_body r with
  | Some b => (Some (dg_digest d b), tt)
  | None => (None, tt)
  end.

(** The trait implementations, lines 246-286. *)
Definition mr_rl : request_like mock := RequestLike mock mr_derive mr_has_component.
Definition mr_client : client_request_like mock := ClientRequestLike mock mr_rl mr_host mr_set_header mr_compute_digest.
Definition mr_server : server_request_like mock unit :=
  ServerRequestLike mock unit mr_rl mr_complete_with_digest (fun _ => tt).

(** ** Construction

    The URL parser of the [url] crate is not modelled: it is the argument [up]. *)
Inductive url_error := RelativeUrlWithoutBase | UrlOther.
Definition url_parser := str -> result url url_error.

(** Lines 101-107 [with_header]. *)
Definition mr_with_header (r : mock) (name value : str) : outcome mock :=
  do n <- unwrap (hname_parse name);
  do v <- unwrap (hvalue_parse value);
  Done (mr_set_header r n v).

(** Lines 110-114 [with_body]. *)
Definition mr_with_body (r : mock) (body : str) : outcome mock :=
  mr_with_header (MockReq (mr_version r) (mr_method r) (mr_url r) (mr_path r) (mr_headers r) (Some body))
    $"Content-Length" (dec_of_N (N.of_nat (List.length body))).

(** Lines 81-98 [new]. *)
Definition mr_new (up : url_parser) (v : version) (method path : str) (headers : header_map) : outcome mock :=
  match up path with
  | Err _ => Panic
  | Ok u =>
      let r := MockReq v method u path headers None in
      match u_host u with
      | Some h => mr_with_header r $"Host" h
      | None => Done r
      end
  end.

(** Lines 188-216 [derive_url] (called with no scheme, line 171): [None] is an error
    value, [Panic] the [expect] of line 204. *)
Definition derive_url (up : url_parser) (path : str) (headers : header_map) : outcome (option url) :=
  match up path with
  | Ok u => Done (Some u)
  | Err RelativeUrlWithoutBase =>
      match hm_get headers h_host with
      | Some host =>
          match hvalue_to_str host with
          | None => Done None
          | Some h => match up ($"http://" ++ h ++ path) with Ok u => Done (Some u) | Err _ => Panic end
          end
      | None => Done None
      end
  | Err UrlOther => Done None
  end.

(** [BufRead::read_line]: up to and including the next LF; an error when the line is
    not UTF-8. *)
Fixpoint take_line (s : str) : str * str :=
  match s with
  | [] => ([], [])
  | c :: s' => if Ascii.eqb c ch_lf then ([c], s')
               else let '(l, r) := take_line s' in (c :: l, r)
  end.
Definition read_line (s : str) : option (str * str) :=
  let '(l, r) := take_line s in if utf8_valid l then Some (l, r) else None.

(** Lines 138-154: the header loop (fuel: every line consumes a byte).  Returns the
    headers, whether a body follows, and the rest of the input. *)
Fixpoint read_headers (fuel : nat) (s : str) (hs : header_map) : option (header_map * bool * str) :=
  match fuel with
  | O => None
  | S f =>
      match read_line s with
      | None => None
      | Some ([], _) => Some (hs, false, [])
      | Some (line, rest) =>
          match trim line with
          | [] => Some (hs, true, rest)
          | _ =>
              match split_once ":" line with
              | None =>
                  (* the name is parsed before the missing value is noticed; both are errors *)
                  None
              | Some (n, v) =>
                  match hname_parse (trim n), hvalue_parse (trim v) with
                  | Some n', Some v' => read_headers f rest (hm_insert hs n' v')
                  | _, _ => None
                  end
              end
          end
      end
  end.

(** Lines 117-181 [from_reader] on the whole input.  [trace]: trace logging is enabled; the
    message of lines 159-162 then decodes the body with [expect]. *)
Definition from_reader (trace : bool) (up : url_parser) (s : str) : outcome (option mock) :=
  match read_line s with
  | None => Done None
  | Some (line, rest) =>
      match split_ascii_whitespace line with
      | m :: path :: v :: _ =>
          match method_parse m, version_parse v with
          | Some method, Some ver =>
              match read_headers (Datatypes.S (List.length rest)) rest [] with
              | None => Done None
              | Some (hs, has_body, rest') =>
                  if trace && has_body && negb (utf8_valid rest') then Panic else
                  do ou <- derive_url up path hs;
                  Done (match ou with
                        | Some u => Some (MockReq ver method u path hs (if has_body then Some rest' else None))
                        | None => None
                        end)
              end
          | _, _ => Done None
          end
      | _ => Done None
      end
  end.

(** Lines 219-236 [write]: the bytes written when it returns, and whether it succeeded.
    The line of a header is written only after [to_str()?] has succeeded.  Failing writers:
    Io.v. *)
Fixpoint write_headers (hs : header_map) : str * bool :=
  match hs with
  | [] => ([], true)
  | (n, v) :: hs' =>
      match hvalue_to_str v with
      | Some t => let '(rest, ok) := write_headers hs' in (n ++ $": " ++ t ++ [ch_lf] ++ rest, ok)
      | None => ([], false)
      end
  end.
Definition write_out (r : mock) : str * bool :=
  let '(hs, ok) := write_headers (mr_headers r) in
  (mr_method r ++ $" " ++ mr_path r ++ $" HTTP/1.1" ++ [ch_lf] ++ hs
   ++ (if ok then match mr_body r with Some b => ch_lf :: b | None => [] end else []), ok).
(** The text of a successful [write]. *)
Definition write (r : mock) : option str := match write_out r with (t, true) => Some t | (_, false) => None end.
