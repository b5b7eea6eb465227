(** C89: component lists, items and their texts. *)
From Verif Require Import CanonFacts CompFacts ConvertFacts Samples.

(** A component that can be made survives the way to an item and back. *)
Theorem C89_component_item : forall c : component, component_rep c -> comp_from_item (comp_to_item c) = Done c.
Proof. exact item_of_component. Qed.
Print Assumptions C89_component_item.

(** The constructors from names and items make what is read from the item. *)
Theorem C89_made_of_items :
  (forall h, header_name h -> comp_from_item (Item (BString h) []) = Done (comp_of_header h))
  /\ (forall i n, it_bare i = BString ("@"%char :: n) -> comp_from_item i = Done (comp_of_derived (dc_from_item i)))
  /\ (forall d, comp_to_item (comp_of_derived d) = dc_to_item d) /\ (forall d, dc_from_item (dc_to_item d) = d).
Proof. exact made_of_items. Qed.
Print Assumptions C89_made_of_items.

(** [partial_cmp] always has an answer, that of the printed texts, and panics where [cmp] does. *)
Theorem C33_partial_order :
  (forall (a b : component) (s t : str), prints a s -> prints b t ->
     exists o, comp_partial_cmp a b = Done (Some o) /\ (o = Lt <-> before s t) /\ (o = Eq <-> s = t) /\ (o = Gt <-> before t s))
  /\ (forall a b, comp_partial_cmp a b = Panic <-> ~ (exists t, prints a t) \/ ~ (exists t, prints b t))
  /\ (forall a b : derived, dc_partial_cmp a b = Some (dc_cmp a b)).
Proof. exact partial_orders. Qed.
Print Assumptions C33_partial_order.

(** An item is read as a component, or the conversion panics. *)
Theorem C89_from_item : forall i : item,
  (forall c, comp_from_item i = Done c <-> reads_as i c) /\ (comp_from_item i = Panic <-> ~ exists c, reads_as i c).
Proof. exact from_item_iff. Qed.
Print Assumptions C89_from_item.

(** The item comes back unchanged exactly if it is derived, or a lower case field name without parameters. *)
Theorem C89_item_kept : forall (i : item) (c : component), reads_as i c ->
  (comp_to_item c = i <-> (exists n, it_bare i = BString ("@"%char :: n)) \/ exists h, header_name h /\ i = Item (BString h) []).
Proof. exact item_kept. Qed.
Print Assumptions C89_item_kept.

(** [get_item] is the first item that is this string. *)
Theorem C89_get_item : forall (l : inner_list) (k : str) (i : item),
  cl_get_item l k = Some i <->
  exists pre post, il_items l = pre ++ i :: post /\ it_bare i = BString k /\ Forall (fun j => it_bare j <> BString k) pre.
Proof. exact get_item_some. Qed.
Print Assumptions C89_get_item.
Theorem C89_get_item_none : forall (l : inner_list) (k : str),
  cl_get_item l k = None <-> forall i, In i (il_items l) -> it_bare i <> BString k.
Proof. exact get_item_none. Qed.
Print Assumptions C89_get_item_none.

(** A list is read by its first entry alone, which must be an inner list. *)
Theorem C89_lists : forall l : list list_entry,
  (forall x, cl_try_from_list l = Ok x <-> exists rest, l = LEInner x :: rest)
  /\ (forall e, cl_try_from_list l = Err e <-> e = ESignatureInputError /\ ~ exists x rest, l = LEInner x :: rest).
Proof. exact list_converts. Qed.
Print Assumptions C89_lists.
Theorem C89_list_back : forall x : inner_list, cl_try_from_list (cl_as_list x) = Ok x.
Proof. exact list_back. Qed.
Print Assumptions C89_list_back.

(** What is printed, and when printing panics. *)
Theorem C89_list_text : forall (l : inner_list) (t : str), cl_display l = Done t <-> inner_text (il_items l) (il_params l) t.
Proof. exact list_text. Qed.
Print Assumptions C89_list_text.
Theorem C89_input_text : forall (si : signature_input) (t : str), si_display si = Done t <->
  exists sp, key_text (si_label si) (si_label si) /\ inner_text (il_items (si_list si)) (il_params (si_list si)) sp
    /\ t = si_label si ++ $"=" ++ sp.
Proof. exact input_text. Qed.
Print Assumptions C89_input_text.
(** The printers used in the model of [sign] and [verify] are these. *)
Theorem C89_same_text : forall (l : inner_list) (si : signature_input),
  cl_display l = cl_to_string l /\ si_display si = si_to_string si.
Proof. exact same_text. Qed.
Print Assumptions C89_same_text.

Definition c89_param : item := Item (BString $"@query-param") [($"name", BString $"a")].
Definition c89_list : inner_list := InnerList [Item (BToken $"date") []; c89_param; Item (BString $"Date") [($"sf", BBoolean true)]; Item (BString $"date") []] [($"keyid", BString $"k")].
Example C89_case :
  component_rep (CHeader $"content-type")
  /\ comp_to_item (CHeader $"content-type") = Item (BString $"content-type") []
  /\ comp_from_item c89_param = Done (CDerived (Derived c89_param))
  /\ comp_from_item (Item (BString $"Date") [($"sf", BBoolean true)]) = Done (CHeader $"date")
  /\ comp_from_item (Item (BToken $"date") []) = Panic
  /\ comp_from_item (Item (BString $"a b") []) = Panic
  /\ cl_get_item c89_list $"date" = Some (Item (BString $"date") [])
  /\ cl_get_item c89_list $"host" = None
  /\ cl_try_from_list [LEItem c89_param; LEInner c89_list] = Err ESignatureInputError
  /\ cl_try_from_list [LEInner c89_list; LEItem c89_param] = Ok c89_list
  /\ cl_display c89_list = Done (s2b "(date ""@query-param"";name=""a"" ""Date"";sf ""date"");keyid=""k""")
  /\ si_display (SignatureInput $"Sig" c89_list) = Panic
  /\ si_display (SignatureInput $"sig" (InnerList [] [])) = Done $"sig=()".
Proof. split; [apply header_name_ok; now vm_compute|]. repeat (split; [vm_compute; reflexivity|]). vm_compute. reflexivity. Qed.
