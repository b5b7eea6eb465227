(** Component identifiers: src/derived.rs and src/signature_component.rs. *)
From Verif Require Export Str Sfv Http.

(** ** Derived component names, src/derived.rs:12-42 *)
Definition AT_SIGNATURE_PARAMS : str := $"@signature-params".
Definition AT_METHOD : str := $"@method".
Definition AT_TARGET_URI : str := $"@target-uri".
Definition AT_AUTHORITY : str := $"@authority".
Definition AT_SCHEME : str := $"@scheme".
Definition AT_REQUEST_TARGET : str := $"@request-target".
Definition AT_PATH : str := $"@path".
Definition AT_QUERY : str := $"@query".
Definition AT_QUERY_PARAMS : str := $"@query-params".
Definition AT_STATUS : str := $"@status".
Definition AT_REQUEST_RESPONSE : str := $"@request-response".

(** [DerivedComponent] (src/derived.rs:53-56): a structured-field item. *)
Record derived := Derived { dc_item : item }.

(** src/derived.rs:60-65 [new]. *)
Definition dc_new (name : str) : derived := Derived (Item (BString name) []).

(** src/derived.rs:68-72 [with_param]. *)
Definition dc_with_param (d : derived) (k v : str) : derived :=
  Derived (Item (it_bare (dc_item d)) (imap_insert (it_params (dc_item d)) k (BString v))).

(** src/derived.rs:75-77 [name]: panics when the item is not a string. *)
Definition dc_name (d : derived) : outcome str := unwrap (as_str (it_bare (dc_item d))).

(** src/derived.rs:80-86 [param]. *)
Definition dc_param (d : derived) (k : str) : option str :=
  match imap_get (it_params (dc_item d)) k with Some x => as_str x | None => None end.

(** src/derived.rs:111-125: the @query-params case of [derive]. *)
Definition derive_query_params (d : derived) (u : url) : option str :=
  match dc_param d $"name" with
  | None => None
  | Some field =>
      Some (join [ch_lf] (map snd (filter (fun p => str_eqb field (fst p)) (query_pairs u))))
  end.

(** src/derived.rs:94-128 [derive]. *)
Definition dc_derive (d : derived) (host : option str) (method : str) (u : url) : outcome (option str) :=
  do n <- dc_name d;
  Done (
    if str_eqb n AT_METHOD then Some method
    else if str_eqb n AT_REQUEST_TARGET then Some (url_to_string u)
    else if str_eqb n AT_TARGET_URI then Some (url_to_string u)
    else if str_eqb n AT_AUTHORITY then host
    else if str_eqb n AT_SCHEME then Some (u_scheme u)
    else if str_eqb n AT_PATH then Some (u_path u)
    else if str_eqb n AT_QUERY then option_map (fun q => "?"%char :: q) (u_query u)
    else if str_eqb n AT_QUERY_PARAMS then derive_query_params d u
    else None).

(** ** Equality and order of derived components *)

(** [Decimal]'s [PartialEq]/[Ord]: numeric. *)
Definition dec_Z (d : decimal) : Z := (if d_neg d then - Z.of_N (d_mant d) else Z.of_N (d_mant d))%Z.
Definition dec_cmp (a b : decimal) : comparison :=
  (dec_Z a * 10 ^ Z.of_nat (d_scale b) ?= dec_Z b * 10 ^ Z.of_nat (d_scale a))%Z.

(** [BareItem]'s derived [PartialEq]. *)
Definition bare_eqb (a b : bare) : bool :=
  match a, b with
  | BDecimal x, BDecimal y => match dec_cmp x y with Eq => true | _ => false end
  | BInteger x, BInteger y => (x =? y)%Z
  | BString x, BString y => str_eqb x y
  | BByteSeq x, BByteSeq y => str_eqb x y
  | BBoolean x, BBoolean y => Bool.eqb x y
  | BToken x, BToken y => str_eqb x y
  | _, _ => false
  end.

(** [IndexMap]'s [PartialEq]: same length and every entry of one is in the other
    (the order of the entries does not matter). *)
Definition params_eqb (a b : params) : bool :=
  Nat.eqb (List.length a) (List.length b)
  && forallb (fun kv => match imap_get b (fst kv) with Some v => bare_eqb (snd kv) v | None => false end) a.

(** [Item]'s derived [PartialEq]; src/derived.rs:131-136 [PartialEq for DerivedComponent]. *)
Definition item_eqb (a b : item) : bool :=
  bare_eqb (it_bare a) (it_bare b) && params_eqb (it_params a) (it_params b).
Definition dc_eqb (a b : derived) : bool := item_eqb (dc_item a) (dc_item b).

(** [bool::cmp] (std), used at src/derived.rs:170. *)
Definition bool_cmp (a b : bool) : comparison :=
  match a, b with false, true => Lt | true, false => Gt | _, _ => Eq end.

(** src/derived.rs:140-181 [Ord for DerivedComponent]: compares the bare items
    when they have the same type, and answers [Equal] otherwise. *)
Definition dc_cmp (a b : derived) : comparison :=
  match it_bare (dc_item a), it_bare (dc_item b) with
  | BString x, BString y => str_cmp x y
  | BToken x, BToken y => str_cmp x y
  | BDecimal x, BDecimal y => dec_cmp x y
  | BInteger x, BInteger y => (x ?= y)%Z
  | BBoolean x, BBoolean y => bool_cmp x y
  | BByteSeq x, BByteSeq y => str_cmp x y
  | _, _ => Eq
  end.

(** src/derived.rs:201-206 [Display]: panics if the item cannot be serialized. *)
Definition dc_to_string (d : derived) : outcome str := unwrap (ser_item (dc_item d)).

(** ** Errors, src/errors.rs (payload texts of parser errors not modelled) *)
Inductive component :=
| CDerived (d : derived)
| CHeader (h : str).

Inductive error :=
| EParseError                                     (* errors.rs:15 *)
| EMissingComponents (l : list component)         (* errors.rs:20 *)
| ESignatureInputParseError                       (* errors.rs:24 *)
| ESignatureInputError                            (* errors.rs:28 *)
| ECanonicalize                                   (* errors.rs:34 *)
| EInvalidSignatureCreationDate                   (* errors.rs:38 *)
| EInvalidSignatureExpiresDate                    (* errors.rs:42 *)
| EUnrecognizedDerivedComponent (s : str)         (* errors.rs:46 *)
| EDerivedComponentParse                          (* errors.rs:50 *)
| EHeaderNameParse (s : str)                      (* errors.rs:54 *)
| EFailedToSerialize                              (* errors.rs:57 *)
| EConvertHeader.                                 (* errors.rs:61 *)

(** src/derived.rs:188-199 [FromStr for DerivedComponent]. *)
Definition dc_from_str (text : str) : result derived error :=
  if starts_with [ch_quote; "@"%char] text
  then match parse_item_field text with
       | Some i => Ok (Derived i)
       | None => Err EDerivedComponentParse
       end
  else Err EDerivedComponentParse.

(** ** [SignatureComponent], src/signature_component.rs *)

(** src/signature_component.rs:27-32 [to_item] (and 102-109 [Into<Item>]). *)
Definition comp_to_item (c : component) : item :=
  match c with
  | CDerived d => dc_item d
  | CHeader h => Item (BString h) []
  end.

(** src/signature_component.rs:35-40 [to_header_name]. *)
Definition comp_to_header_name (c : component) : option str :=
  match c with CHeader h => Some h | CDerived _ => None end.

(** src/signature_component.rs:43-52 [Display]. *)
Definition comp_to_string (c : component) : outcome str :=
  match c with
  | CDerived d => dc_to_string d
  | CHeader h => Done h
  end.

(** src/signature_component.rs:54-65 [FromStr]. *)
Definition comp_from_str (s : str) : result component error :=
  if starts_with $"@" s || starts_with [ch_quote] s
  then match dc_from_str s with Ok d => Ok (CDerived d) | Err e => Err e end
  else match hname_parse s with
       | Some h => Ok (CHeader h)
       | None => Err (EHeaderNameParse s)
       end.

(** src/signature_component.rs:91-100 [From<Item>]: panics on an item that is not
    a string, and on a string that is neither @-prefixed nor a header name;
    parameters of header fields are dropped. *)
Definition comp_from_item (i : item) : outcome component :=
  do name <- unwrap (as_str (it_bare i));
  if starts_with $"@" name then Done (CDerived (Derived i))
  else do h <- unwrap (hname_parse name); Done (CHeader h).

(** src/signature_component.rs:16 derived [PartialEq]. *)
Definition comp_eqb (a b : component) : bool :=
  match a, b with
  | CDerived x, CDerived y => dc_eqb x y
  | CHeader x, CHeader y => str_eqb x y
  | _, _ => false
  end.

(** src/signature_component.rs:67-71 [Ord]: compares the printed forms. *)
Definition comp_cmp (a b : component) : outcome comparison :=
  do x <- comp_to_string a;
  do y <- comp_to_string b;
  Done (str_cmp x y).

(** ** Signature parameters, src/signature_params.rs *)

Definition k_created : str := $"created".   (* signature_params.rs:15 *)
Definition k_expires : str := $"expires".   (* signature_params.rs:17 *)
Definition k_nonce : str := $"nonce".       (* signature_params.rs:19 *)
Definition k_alg : str := $"alg".           (* signature_params.rs:21 *)
Definition k_keyid : str := $"keyid".       (* signature_params.rs:23 *)

(** src/signature_params.rs:45-104: setters and getters of [SignatureParams]
    (the struct wraps [sfv::Parameters]). *)
Definition sp_set_created (p : params) (z : Z) : params := imap_insert p k_created (BInteger z).
Definition sp_set_expires (p : params) (z : Z) : params := imap_insert p k_expires (BInteger z).
Definition sp_set_nonce (p : params) (s : str) : params := imap_insert p k_nonce (BToken s).
Definition sp_set_alg (p : params) (s : str) : params := imap_insert p k_alg (BString s).
Definition sp_set_keyid (p : params) (s : str) : params := imap_insert p k_keyid (BString s).

(** [Option::and_then] (src/signature_params.rs:54,66,79,91,103), and the getters. *)
Definition opt_bind {A B} (o : option A) (f : A -> option B) : option B :=
  match o with Some a => f a | None => None end.
Definition sp_get_created (p : params) : option Z := opt_bind (imap_get p k_created) as_int.
Definition sp_get_expires (p : params) : option Z := opt_bind (imap_get p k_expires) as_int.
Definition sp_get_nonce (p : params) : option str := opt_bind (imap_get p k_nonce) as_token.
Definition sp_get_alg (p : params) : option str := opt_bind (imap_get p k_alg) as_str.
Definition sp_get_keyid (p : params) : option str := opt_bind (imap_get p k_keyid) as_str.
