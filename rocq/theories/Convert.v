(** Conversions of src/signature_component.rs, src/derived.rs and src/signature_input.rs that the
    rest of the model does without, and the structured-field printers in their general form. *)
From Verif Require Export Canonicalize.

(** src/signature_component.rs:78-82 [From<HeaderName>], 84-88 [From<DerivedComponent>]. *)
Definition comp_of_header (h : str) : component := CHeader h.
Definition comp_of_derived (d : derived) : component := CDerived d.

(** src/derived.rs:89-91 [item], 208-212 [From<Item> for DerivedComponent]. *)
Definition dc_to_item (d : derived) : item := dc_item d.
Definition dc_from_item (i : item) : derived := Derived i.

(** src/signature_component.rs:73-77 and src/derived.rs:183-187 [PartialOrd]. *)
Definition comp_partial_cmp (a b : component) : outcome (option comparison) := do o <- comp_cmp a b; Done (Some o).
Definition dc_partial_cmp (a b : derived) : option comparison := Some (dc_cmp a b).

(** src/signature_input.rs:28-30 [as_list]: an [sfv::List] is a vector of entries. *)
Definition cl_as_list (l : inner_list) : list list_entry := [LEInner l].

(** src/signature_input.rs:55-66 [TryFrom<&ListEntry>]. *)
Definition cl_try_from_entry (e : list_entry) : result inner_list error :=
  match e with LEInner l => Ok l | LEItem _ => Err ESignatureInputError end.

(** src/signature_input.rs:68-78 [TryFrom<&List>]. *)
Definition cl_try_from_list (l : list list_entry) : result inner_list error :=
  match l with e :: _ => cl_try_from_entry e | [] => Err ESignatureInputError end.

(** src/signature_input.rs:49 [List::serialize_value] of the sfv crate: the entries one by one ... *)
Definition ser_entry (e : list_entry) : option str :=
  match e with LEItem i => ser_item i | LEInner l => ser_inner_list l end.
Fixpoint ser_entries (l : list list_entry) : option (list str) :=
  match l with
  | [] => Some []
  | e :: l' => match ser_entry e, ser_entries l' with Some a, Some b => Some (a :: b) | _, _ => None end
  end.
(** ... and the list (src/signature_input.rs:49), which is refused if it is empty. *)
Definition ser_list (l : list list_entry) : option str :=
  match l with [] => None | _ => option_map (join $", ") (ser_entries l) end.

(** src/signature_input.rs:120 [Dictionary::serialize_value] of the sfv crate, one member: a member that is the item [true] is written
    without a value. *)
Definition ser_member (kv : str * list_entry) : option str :=
  match ser_key (fst kv) with
  | None => None
  | Some k =>
      match snd kv with
      | LEItem (Item (BBoolean true) p) => option_map (fun t => k ++ t) (ser_params p)
      | e => option_map (fun t => k ++ $"=" ++ t) (ser_entry e)
      end
  end.
Fixpoint ser_members (d : list (str * list_entry)) : option (list str) :=
  match d with
  | [] => Some []
  | m :: d' => match ser_member m, ser_members d' with Some a, Some b => Some (a :: b) | _, _ => None end
  end.
(** src/signature_input.rs:120: the dictionary, which is refused if it is empty. *)
Definition ser_dictionary (d : dictionary) : option str :=
  match d with [] => None | _ => option_map (join $", ") (ser_members d) end.

(** src/signature_input.rs:45-53 [Display for ComponentList], as written. *)
Definition cl_display (l : inner_list) : outcome str := unwrap (ser_list (cl_as_list l)).
(** src/signature_input.rs:114-125 [Display for SignatureInput], as written. *)
Definition si_display (si : signature_input) : outcome str :=
  unwrap (ser_dictionary (imap_insert [] (si_label si) (LEInner (si_list si)))).
