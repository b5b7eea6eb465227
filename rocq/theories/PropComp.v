(** Properties of component identifiers: C32, C33. *)
From Verif Require Import SpecHist CompFacts Samples.

(** C32: representable components are printed, and parse back. *)
Theorem C32_printed_parses_back : forall (c : component), component_rep c ->
  (exists t, prints c t)
  /\ forall t, prints c t -> comp_to_string c = Done t /\ exists c', comp_from_str t = Ok c' /\ same_component c' c.
Proof.
  exact (fun c R => conj (rep_prints c R) (fun t P => conj (proj1 (prints_iff c t) P) (comp_print_parse c t R P))).
Qed.
Print Assumptions C32_printed_parses_back.
(** Whatever is accepted is a valid header name, in lower case, or a quoted item whose
    name starts with "@". *)
Theorem C32_accepted_is_valid : forall (s : str) (c : component), comp_from_str s = Ok c ->
  component_rep c /\ match c with
                     | CHeader h => spelled s h
                     | CDerived _ => exists s', s = ch_quote :: "@"%char :: s'
                     end.
Proof. exact comp_from_str_ok. Qed.
Print Assumptions C32_accepted_is_valid.
Theorem C32_headers_exactly : forall s h : str, comp_from_str s = Ok (CHeader h) <-> spelled s h.
Proof. exact comp_from_str_header. Qed.
Print Assumptions C32_headers_exactly.
Theorem C32_unquoted_at_rejected : forall s : str, comp_from_str ("@"%char :: s) = Err EDerivedComponentParse.
Proof. exact comp_from_str_bare_at. Qed.
Print Assumptions C32_unquoted_at_rejected.
(** Expected, but false of derived components made with a name that does not start with
    "@": they are printed and never parse back. *)
Theorem C32_other_names_never_parse_back_refuted : forall (n t : str) (p : params), (forall m, n <> "@"%char :: m) ->
  prints (CDerived (Derived (Item (BString n) p))) t -> comp_from_str t = Err EDerivedComponentParse.
Proof. exact comp_at_less. Qed.
Print Assumptions C32_other_names_never_parse_back_refuted.
Example C32_case : let c := CDerived (dc_with_param (dc_new AT_QUERY_PARAMS) $"name" (s2b "a""b")) in
  component_rep c /\ comp_to_string c = Done (s2b """@query-params"";name=""a\""b""")
  /\ comp_from_str (s2b """@query-params"";name=""a\""b""") = Ok c
  /\ comp_from_str $"X-Request-Id" = Ok (CHeader $"x-request-id") /\ comp_from_str $"@method" = Err EDerivedComponentParse
  /\ comp_to_string (CDerived (dc_new $"method")) = Done (s2b """method""").
Proof. split; [apply component_repb_rep; reflexivity|]. repeat split; reflexivity. Qed.

(** C33: comparison follows the byte order of the printed forms ... *)
Theorem C33_order_of_printed_forms : forall (a b : component) (s t : str), prints a s -> prints b t ->
  (comp_cmp a b = Done Lt <-> before s t) /\ (comp_cmp a b = Done Eq <-> s = t) /\ (comp_cmp a b = Done Gt <-> before t s).
Proof. exact comp_order. Qed.
Print Assumptions C33_order_of_printed_forms.
(** ... and panics exactly when one of the two cannot be printed. *)
Theorem C33_comparison_panics : forall a b : component,
  comp_cmp a b = Panic <-> ~ (exists t, prints a t) \/ ~ (exists t, prints b t).
Proof. exact comp_cmp_panic. Qed.
Print Assumptions C33_comparison_panics.
(** On representable components it is a total order. *)
Theorem C33_total_order : forall a b c : component, component_rep a -> component_rep b -> component_rep c ->
  comp_cmp a a = Done Eq
  /\ (exists o, comp_cmp a b = Done o /\ comp_cmp b a = Done (CompOpp o))
  /\ (comp_cmp a b = Done Lt -> comp_cmp b c = Done Lt -> comp_cmp a c = Done Lt)
  /\ (comp_cmp a b = Done Eq -> comp_cmp b c = comp_cmp a c).
Proof. exact comp_order_laws. Qed.
Print Assumptions C33_total_order.
(** Equality: numbers by value, parameters as a map; an equivalence. *)
Theorem C33_equality : forall a b : component, distinct_params a -> distinct_params b ->
  (comp_eqb a b = true <-> equal_component a b).
Proof. exact (fun a b A B => iff_sym (equal_component_iff a b A B)). Qed.
Print Assumptions C33_equality.
Theorem C33_equality_is_an_equivalence : (forall a, distinct_params a -> comp_eqb a a = true)
  /\ (forall a b, distinct_params a -> distinct_params b -> comp_eqb a b = true -> comp_eqb b a = true)
  /\ (forall a b c, distinct_params a -> distinct_params b -> distinct_params c -> comp_eqb a b = true -> comp_eqb b c = true -> comp_eqb a c = true).
Proof. exact equality_equivalence. Qed.
Print Assumptions C33_equality_is_an_equivalence.
(** Comparing Equal implies equality. *)
Theorem C33_equal_in_order_is_equal : forall a b : component, component_rep a -> component_rep b ->
  comp_cmp a b = Done Eq -> equal_component a b.
Proof. exact comp_equal_order. Qed.
Print Assumptions C33_equal_in_order_is_equal.
(** The converse was expected, but is false: parameters in another order, and decimals
    written with more digits. *)
Theorem C33_parameter_order_refuted : exists a b : component,
  component_rep a /\ component_rep b /\ comp_eqb a b = true /\ comp_cmp a b = Done Lt.
Proof.
  exists (CDerived (dc_with_param (dc_with_param (dc_new $"@x") $"a" $"1") $"b" $"2")),
    (CDerived (dc_with_param (dc_with_param (dc_new $"@x") $"b" $"2") $"a" $"1")).
  split; [apply component_repb_rep; reflexivity|]. split; [apply component_repb_rep; reflexivity|]. split; reflexivity.
Qed.
Print Assumptions C33_parameter_order_refuted.
Theorem C33_decimal_digits_refuted : exists (a b : component) (s t : str),
  comp_from_str s = Ok a /\ comp_from_str t = Ok b /\ comp_eqb a b = true /\ comp_cmp a b = Done Lt.
Proof.
  eexists _, _, (s2b """@x"";a=1.5"), (s2b """@x"";a=1.50").
  split; [vm_compute; reflexivity|]. split; [vm_compute; reflexivity|]. split; vm_compute; reflexivity.
Qed.
Print Assumptions C33_decimal_digits_refuted.
(** It holds of components with at most one parameter and no decimals. *)
Theorem C33_consistent_with_equality_partial : forall a b : component,
  component_rep a -> component_rep b -> one_param a -> one_param b ->
  (comp_eqb a b = true <-> comp_cmp a b = Done Eq).
Proof. exact plain_consistent. Qed.
Print Assumptions C33_consistent_with_equality_partial.
(** The order of derived components is that of their names ... *)
Theorem C33_derived_order_partial : forall (a b : derived) (s t : str),
  it_bare (dc_item a) = BString s -> it_bare (dc_item b) = BString t ->
  (dc_cmp a b = Lt <-> before s t) /\ (dc_cmp a b = Eq <-> s = t) /\ (dc_cmp a b = Gt <-> before t s).
Proof. exact derived_order. Qed.
Print Assumptions C33_derived_order_partial.
(** ... and for items that are not strings that of their values, if of the same type ... *)
Theorem C33_derived_values_partial : forall a b : derived, let x := it_bare (dc_item a) in let y := it_bare (dc_item b) in
  (dc_cmp a b = Lt <-> value_before x y) /\ (dc_cmp a b = Gt <-> value_before y x)
  /\ (dc_cmp a b = Eq <-> ~ value_before x y /\ ~ value_before y x).
Proof. exact derived_values. Qed.
Print Assumptions C33_derived_values_partial.
Example C33_values_case : value_before (BDecimal (Dec true 15 1)) (BDecimal (Dec true 1 0))
  /\ value_before (BDecimal (Dec false 149 2)) (BDecimal (Dec false 15 1)).
Proof. split; constructor; reflexivity. Qed.
(** ... so it is not consistent with their equality ... *)
Theorem C33_derived_order_refuted : exists a b : derived,
  component_rep (CDerived a) /\ component_rep (CDerived b) /\ dc_cmp a b = Eq /\ dc_eqb a b = false.
Proof.
  exists (dc_with_param (dc_new AT_QUERY_PARAMS) $"name" $"a"), (dc_with_param (dc_new AT_QUERY_PARAMS) $"name" $"b").
  split; [apply component_repb_rep; reflexivity|]. split; [apply component_repb_rep; reflexivity|]. split; reflexivity.
Qed.
Print Assumptions C33_derived_order_refuted.
(** ... and with items of different types not an order at all. *)
Theorem C33_derived_mixed_types_refuted : exists a b c : derived,
  dc_cmp a b = Eq /\ dc_cmp b c = Eq /\ dc_cmp a c = Lt.
Proof.
  exists (dc_new $"@a"), (Derived (Item (BInteger 1) [])), (dc_new $"@b"). repeat split.
Qed.
Print Assumptions C33_derived_mixed_types_refuted.
(** The byte order is a strict total order. *)
Theorem C33_byte_order : (forall s, ~ before s s) /\ (forall s t u, before s t -> before t u -> before s u)
  /\ (forall s t, before s t \/ s = t \/ before t s).
Proof. exact (conj before_irrefl (conj before_trans before_total)). Qed.
Print Assumptions C33_byte_order.
Example C33_case : let a := CDerived (dc_new AT_METHOD) in let b := CHeader $"date" in let c := CHeader $"host" in
  component_rep a /\ component_rep b /\ component_rep c /\ one_param a /\ comp_cmp a b = Done Lt /\ comp_cmp b c = Done Lt /\ comp_cmp c a = Done Gt.
Proof.
  split; [apply component_repb_rep; reflexivity|]. split; [apply component_repb_rep; reflexivity|]. split; [apply component_repb_rep; reflexivity|].
  split; [split; exact I|]. repeat split; reflexivity.
Qed.
