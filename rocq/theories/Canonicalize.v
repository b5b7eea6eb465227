(** src/signature_input.rs and src/canonicalize.rs. *)
From Verif Require Export Str Sfv Http Component.

(** ** Traits

    [RequestLike] (src/canonicalize.rs:19-29) as a record of operations.  [derive]
    may panic (src/derived.rs:76), hence [outcome]. *)
Record request_like (R : Type) := RequestLike {
  rl_derive : R -> component -> outcome (option str);
  rl_has_component : R -> component -> outcome bool
}.
Arguments rl_derive {R}. Arguments rl_has_component {R}.

(** ** Signature-Input, src/signature_input.rs *)

(** src/signature_input.rs:17-25 [ComponentList::new]. *)
Definition cl_new (cs : list component) (p : params) : inner_list :=
  InnerList (map comp_to_item cs) p.

(** src/signature_input.rs:33-42 [ComponentList::get_item]. *)
Fixpoint cl_get_item_in (l : list item) (key : str) : option item :=
  match l with
  | [] => None
  | i :: l' =>
      match as_str (it_bare i) with
      | Some k => if str_eqb key k then Some i else cl_get_item_in l' key
      | None => cl_get_item_in l' key
      end
  end.
Definition cl_get_item (l : inner_list) (key : str) : option item := cl_get_item_in (il_items l) key.

(** src/signature_input.rs:45-53 [Display for ComponentList], as used by
    [to_string()]: [ToString] panics when [fmt] returns an error. *)
Definition cl_to_string (l : inner_list) : outcome str := unwrap (ser_inner_list l).

(** src/signature_input.rs:82-87 [SignatureInput]. *)
Record signature_input := SignatureInput { si_label : str; si_list : inner_list }.

(** src/signature_input.rs:91-100 [new]. *)
Definition si_new (label : str) (cs : list component) (p : params) : signature_input :=
  SignatureInput label (cl_new cs p).

(** src/signature_input.rs:109-111 [get_param]. *)
Definition si_get_param (si : signature_input) (key : str) : option bare :=
  imap_get (il_params (si_list si)) key.

(** src/signature_input.rs:114-125 [Display] through [to_string()]. *)
Definition si_to_string (si : signature_input) : outcome str :=
  unwrap (ser_dict1 (si_label si) (si_list si)).

(** src/signature_input.rs:137-157 [TryFrom<&str>] (with 55-66 [TryFrom<&ListEntry>]):
    the first member of the dictionary, which must be an inner list. *)
Definition si_parse (s : str) : result signature_input error :=
  match parse_dictionary s with
  | None => Err ESignatureInputParseError
  | Some d =>
      match d with
      | (label, LEInner l) :: _ => Ok (SignatureInput label l)
      | (_, LEItem _) :: _ => Err ESignatureInputError
      | [] => Err ESignatureInputError
      end
  end.

(** ** Canonicalization configuration, src/canonicalize.rs:47-174 *)
Record canon_config := CanonConfig {
  cc_label : option str;
  cc_components : list component;
  cc_params : params
}.

(** src/canonicalize.rs:56 [new] (= [Default]). *)
Definition cc_new : canon_config := CanonConfig None [] [].

(** src/canonicalize.rs:76-81 [get_label]. *)
Definition cc_get_label (c : canon_config) : str :=
  match cc_label c with Some l => l | None => $"sig" end.

(** src/canonicalize.rs:84-87 [set_label]. *)
Definition cc_set_label (c : canon_config) (l : str) : canon_config :=
  CanonConfig (Some l) (cc_components c) (cc_params c).

(** src/canonicalize.rs:90-99 [with_components], [set_components]. *)
Definition cc_set_components (c : canon_config) (cs : list component) : canon_config :=
  CanonConfig (cc_label c) cs (cc_params c).

(** Access to the private field [params] (the setters of lines 115-152 go through it). *)
Definition cc_set_params (c : canon_config) (p : params) : canon_config :=
  CanonConfig (cc_label c) (cc_components c) p.

(** src/canonicalize.rs:110-152. *)
Definition cc_created (c : canon_config) : option Z := sp_get_created (cc_params c).
Definition cc_expires (c : canon_config) : option Z := sp_get_expires (cc_params c).
Definition cc_alg (c : canon_config) : option str := sp_get_alg (cc_params c).
Definition cc_keyid (c : canon_config) : option str := sp_get_keyid (cc_params c).
Definition cc_set_created (c : canon_config) (z : Z) := cc_set_params c (sp_set_created (cc_params c) z).
Definition cc_set_expires (c : canon_config) (z : Z) := cc_set_params c (sp_set_expires (cc_params c) z).
Definition cc_set_alg (c : canon_config) (s : str) := cc_set_params c (sp_set_alg (cc_params c) s).
Definition cc_set_nonce (c : canon_config) (s : str) := cc_set_params c (sp_set_nonce (cc_params c) s).
Definition cc_set_keyid (c : canon_config) (s : str) := cc_set_params c (sp_set_keyid (cc_params c) s).

(** src/canonicalize.rs:67-73 [to_signature_input]. *)
Definition cc_to_signature_input (c : canon_config) : signature_input :=
  si_new (cc_get_label c) (cc_components c) (cc_params c).

(** [Iterator::map] of a panicking function. *)
Fixpoint omap {A B} (f : A -> outcome B) (l : list A) : outcome (list B) :=
  match l with
  | [] => Done []
  | x :: l' => do y <- f x; do ys <- omap f l'; Done (y :: ys)
  end.

(** src/canonicalize.rs:155-174 [From<&SignatureInput>]. *)
Definition cc_from_signature_input (si : signature_input) : outcome canon_config :=
  do cs <- omap comp_from_item (il_items (si_list si));
  Done (CanonConfig (Some (si_label si)) cs (il_params (si_list si))).

(** src/canonicalize.rs:61-64 [from_signature_input]. *)
Definition cc_parse (s : str) : outcome (result canon_config error) :=
  match si_parse s with
  | Err e => Done (Err e)
  | Ok si => do c <- cc_from_signature_input si; Done (Ok c)
  end.

(** ** Canonicalization, src/canonicalize.rs:192-244 *)

(** Lines 194-204: [partition_map] into derived values and missing components. *)
Fixpoint derive_all {R} (rl : request_like R) (r : R) (cs : list component)
  : outcome (list (component * str) * list component) :=
  match cs with
  | [] => Done ([], [])
  | c :: cs' =>
      do ov <- rl_derive rl r c;
      do (found, missing) <- derive_all rl r cs';
      Done (match ov with
            | Some v => ((c, v) :: found, missing)
            | None => (found, c :: missing)
            end)
  end.

(** Lines 229-232: one line of the signature base. *)
Definition base_line (cv : component * str) : outcome str :=
  match fst cv with
  | CHeader h => Done ([ch_quote] ++ h ++ [ch_quote] ++ $": " ++ snd cv)
  | CDerived d => do n <- dc_to_string d; Done (n ++ $": " ++ snd cv)
  end.

(** Lines 192-244. *)
Definition canonicalize {R} (rl : request_like R) (r : R) (c : canon_config)
  : outcome (result (str * signature_input) error) :=
  do (found, missing) <- derive_all rl r (cc_components c);
  match missing with
  | _ :: _ => Done (Err (EMissingComponents missing))
  | [] =>
      let si := cc_to_signature_input c in
      do sp <- cl_to_string (si_list si);
      do ls <- omap base_line (found ++ [(CDerived (dc_new AT_SIGNATURE_PARAMS), sp)]);
      Done (Ok (join [ch_lf] ls, si))
  end.
