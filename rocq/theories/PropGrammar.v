(** Properties of reading structured fields: C53. *)
From Verif Require Import SpecVerify ReadFacts Samples.

(** C53: a Signature-Input value is read according to the grammar; every outcome. *)
Theorem C53_signature_input : forall s : str,
  (forall label l, si_parse s = Ok (SignatureInput label l) <-> exists others, dictionary_reads s ((label, LEInner l) :: others))
  /\ (si_parse s = Err ESignatureInputParseError <-> forall d, ~ dictionary_reads s d)
  /\ (si_parse s = Err ESignatureInputError <->
      dictionary_reads s [] \/ exists key i others, dictionary_reads s ((key, LEItem i) :: others))
  /\ (forall e, si_parse s = Err e -> e = ESignatureInputParseError \/ e = ESignatureInputError).
Proof. exact si_parse_outcomes. Qed.
Print Assumptions C53_signature_input.
(** The configuration read from it. *)
Theorem C53_configuration : forall (s : str) (cc : canon_config), cc_parse s = Done (Ok cc) <-> input_reads s cc.
Proof. exact cc_parse_iff. Qed.
Print Assumptions C53_configuration.
(** Reading a configuration panics exactly on well-formed lists with an item that is not
    a component. *)
Theorem C53_configuration_panics : forall s : str, cc_parse s = Panic <->
  exists label items p i, first_member s label items p /\ In i items /\ ~ exists c, reads_as i c.
Proof. exact cc_parse_panic. Qed.
Print Assumptions C53_configuration_panics.
(** Identifiers of derived components. *)
Theorem C53_derived_component : forall (s : str) (d : derived), comp_from_str s = Ok (CDerived d) <->
  (exists s', s = [ch_quote; "@"%char] ++ s') /\ item_field_reads s (dc_item d).
Proof. exact comp_from_str_derived. Qed.
Print Assumptions C53_derived_component.
(** The grammar is unambiguous. *)
Theorem C53_unambiguous :
  (forall (s : str) (d d' : dictionary), dictionary_reads s d -> dictionary_reads s d' -> d = d')
  /\ (forall (s : str) (i j : item), item_field_reads s i -> item_field_reads s j -> i = j).
Proof. exact (conj dictionary_unique item_field_unique). Qed.
Print Assumptions C53_unambiguous.
(** A derivation written out; the same key twice. *)
Example C53_case : dictionary_reads $" a=-07;q,b=() , a;r=?0"
  [($"a", LEItem (Item (BBoolean true) [($"r", BBoolean false)])); ($"b", LEInner (InnerList [] []))].
Proof.
  assert (P0 : params_reads [] []) by (exists [], []; repeat split; constructor).
  assert (K : forall c, lowercase c -> key_rep [c]).
  { intros c H. split; [discriminate|]. split; [constructor; [now left|constructor]|]. split; [|reflexivity].
    intros c' k' E. injection E as <- _. now left. }
  assert (Ka : key_rep $"a") by (apply K; cbv; split; discriminate). assert (Kb : key_rep $"b") by (apply K; cbv; split; discriminate).
  assert (Kq : key_rep $"q") by (apply K; cbv; split; discriminate). assert (Kr : key_rep $"r") by (apply K; cbv; split; discriminate).
  exists 1%nat, $"a=-07;q,b=() , a;r=?0",
    [($"a", LEItem (Item (BInteger (-7)) [($"q", BBoolean true)])); ($"b", LEInner (InnerList [] []));
     ($"a", LEItem (Item (BBoolean true) [($"r", BBoolean false)]))].
  split; [reflexivity|]. split.
  - right. apply (read_next $"a=-07;q" _ [] [] $"b=() , a;r=?0"); [|constructor|constructor|].
    + apply (reads_item $"a" $"-07;q"); [exact Ka|]. exists $"-07", $";q". split; [reflexivity|]. split.
      * apply (reads_integer true $"07" 7); [cbn; lia|reflexivity].
      * exists [$";q"], [($"q", BBoolean true)]. split; [|split; [reflexivity|split; [reflexivity|]]].
        -- constructor; [|constructor]. exact (reads_flag 0 $"q" Kq).
        -- intro k. reflexivity.
    + apply (read_next $"b=()" _ $" " $" " $"a;r=?0"); [|repeat constructor|repeat constructor|].
      * apply (reads_inner $"b" $"()"); [exact Kb|]. exists [], []. split; [reflexivity|].
        split; [exact (reads_no_items 0)|exact P0].
      * apply (read_last $"a;r=?0" _ []); [|constructor]. apply (reads_true $"a" $";r=?0"); [exact Ka|].
        exists [$";r=?0"], [($"r", BBoolean false)]. split; [|split; [reflexivity|split; [reflexivity|]]].
        -- constructor; [|constructor]. exact (reads_value 0 $"r" $"?0" (BBoolean false) Kr (reads_boolean false)).
        -- intro k. reflexivity.
  - split; [vm_compute; reflexivity|]. intro k. cbn [value_of rev app].
    repeat (destruct (list_eq_dec ascii_dec _ k); [subst|]); try reflexivity; congruence.
Qed.
Example C53_rejected : Forall (fun s => forall d, ~ dictionary_reads s d)
  [$"a,"; $"A=1"; $"a=1 b"; $"a=1234567890123456"; $"a=1.2345"; $"a=(1"; $"a=(1 2)(3)"; $"a==1"; $"a=:a:"; $"a=?2"].
Proof.
  repeat constructor; intros d D; apply parse_dictionary_iff in D; vm_compute in D; discriminate D.
Qed.
