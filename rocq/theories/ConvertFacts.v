(** Facts about conversions (C89). *)
From Verif Require Export Convert SpecVerify.
From Verif Require Import CompFacts StrFacts CanonFacts ReadFacts VerifyFacts LineFacts.

Lemma item_of_component (c : component) : component_rep c -> comp_from_item (comp_to_item c) = Done c.
Proof.
  intro R. apply reads_as_iff. destruct c as [d|h]; cbn [comp_to_item component_rep] in *.
  - left. destruct R as (n & E & _). exists n. split; [exact E|]. now destruct d.
  - right. exists h, h. apply header_name_ok in R. apply hname_parse_ok in R. apply field_name_iff in R. destruct R as [A B].
    split; [reflexivity|]. split; [exact A|]. split; [exact B|reflexivity].
Qed.

Lemma from_item_iff (i : item) :
  (forall c, comp_from_item i = Done c <-> reads_as i c) /\ (comp_from_item i = Panic <-> ~ exists c, reads_as i c).
Proof.
  split; [intro c; apply reads_as_iff|]. split.
  - intros E (c & H). apply reads_as_iff in H. congruence.
  - intro N. destruct (comp_from_item i) as [c|] eqn:E; [|reflexivity]. destruct N. exists c. now apply reads_as_iff.
Qed.

Lemma lower_header (h n : str) : field_name n -> Forall2 lower_of n h -> header_name h.
Proof. intros F L. apply header_name_ok. apply (hname_parse_some n h). now apply field_name_iff. Qed.

Lemma item_kept (i : item) (c : component) : reads_as i c ->
  (comp_to_item c = i <-> (exists n, it_bare i = BString ("@"%char :: n)) \/ exists h, header_name h /\ i = Item (BString h) []).
Proof.
  intros [(n & E & ->)|(n & h & E & F & L & ->)]; cbn [comp_to_item dc_item].
  - split; [intros _; left; now exists n|reflexivity].
  - split.
    + intros <-. right. exists h. split; [now apply (lower_header h n)|reflexivity].
    + intros [(m & E')|(h' & H & ->)].
      * rewrite E in E'. injection E' as ->. exfalso.
        assert (X : hname_parse ("@"%char :: m) = Some h) by (apply field_name_iff; now split).
        apply hname_parse_some in X. destruct X as [A ->]. unfold hname_ok in A. cbn [map forallb] in A. rewrite !andb_true_iff in A.
        destruct A as [_ [A _]]. now vm_compute in A.
      * cbn [it_bare] in E. injection E as ->. apply header_name_ok in H. apply hname_parse_ok in H.
        assert (X : hname_parse n = Some h) by (apply field_name_iff; now split). congruence.
Qed.

Lemma get_item_some (l : inner_list) (k : str) (i : item) :
  cl_get_item l k = Some i <->
  exists pre post, il_items l = pre ++ i :: post /\ it_bare i = BString k /\ Forall (fun j => it_bare j <> BString k) pre.
Proof.
  unfold cl_get_item. generalize (il_items l). clear l. intro l. induction l as [|j l IH]; cbn [cl_get_item_in].
  - split; [discriminate|]. intros (pre & post & E & _). now destruct pre.
  - assert (Go : it_bare j <> BString k -> (cl_get_item_in l k = Some i <->
      exists pre post, j :: l = pre ++ i :: post /\ it_bare i = BString k /\ Forall (fun j => it_bare j <> BString k) pre)).
    { intro N. rewrite IH. split; intros (pre & post & E & B & F).
      - exists (j :: pre), post. split; [now rewrite E|]. split; [exact B|now constructor].
      - destruct pre as [|x pre]; [injection E as -> ->; congruence|]. injection E as -> ->. inversion F; subst. now exists pre, post. }
    destruct (as_str (it_bare j)) as [s|] eqn:E; [|apply Go; intro X; rewrite X in E; discriminate].
    destruct (it_bare j) as [| |b| | |] eqn:B; try discriminate. injection E as ->.
    destruct (str_eqb k s) eqn:Q.
    + apply str_eqb_eq in Q. subst s. split.
      * intro H. injection H as <-. exists [], l. split; [reflexivity|]. split; [exact B|constructor].
      * intros (pre & post & H & B' & F). destruct pre as [|x pre]; [now injection H as ->|]. injection H as -> ->. inversion F; subst. congruence.
    + apply Go. intro X. injection X as ->. now rewrite str_eqb_refl in Q.
Qed.
Lemma get_item_none (l : inner_list) (k : str) : cl_get_item l k = None <-> forall i, In i (il_items l) -> it_bare i <> BString k.
Proof.
  unfold cl_get_item. pose proof (cl_get_item_in_iff (il_items l) k) as G. split.
  - intros E i I B. assert (X : cl_get_item_in (il_items l) k <> None) by (apply G; eauto). congruence.
  - intro H. destruct (cl_get_item_in (il_items l) k) as [i|] eqn:E; [|reflexivity].
    destruct G as [G _]. destruct G as (j & I & B); [discriminate|]. destruct (H j I B).
Qed.

Lemma list_converts (l : list list_entry) :
  (forall x, cl_try_from_list l = Ok x <-> exists rest, l = LEInner x :: rest)
  /\ (forall e, cl_try_from_list l = Err e <-> e = ESignatureInputError /\ ~ exists x rest, l = LEInner x :: rest).
Proof.
  destruct l as [|[i|x] rest]; cbn [cl_try_from_list cl_try_from_entry].
  - split; [intro x|intro e]; split; intro H; try discriminate.
    + destruct H as (r & H). discriminate.
    + injection H as <-. split; [reflexivity|]. now intros (x & r & H).
    + now destruct H as [-> _].
  - split; [intro x|intro e]; split; intro H; try discriminate.
    + destruct H as (r & H). discriminate.
    + injection H as <-. split; [reflexivity|]. now intros (x & r & H).
    + now destruct H as [-> _].
  - split; [intro y|intro e]; split; intro H; try discriminate.
    + injection H as <-. now exists rest.
    + destruct H as (r & H). now injection H as -> ->.
    + destruct H as [_ H]. destruct H. now exists x, rest.
Qed.

Lemma list_displays (l : inner_list) : cl_display l = cl_to_string l.
Proof.
  unfold cl_display, cl_to_string, ser_list, cl_as_list. cbn [ser_entries ser_entry].
  destruct (ser_inner_list l) as [t|]; [|reflexivity]. cbn [option_map join unwrap]. reflexivity.
Qed.
Lemma input_displays (si : signature_input) : si_display si = si_to_string si.
Proof.
  unfold si_display, si_to_string, ser_dict1, ser_dictionary. cbn [imap_insert ser_members]. unfold ser_member. cbn [fst snd].
  destruct (ser_key (si_label si)) as [k|]; [|reflexivity]. cbn [ser_entry].
  destruct (ser_inner_list (si_list si)) as [t|]; reflexivity.
Qed.
Lemma list_text (l : inner_list) (t : str) : cl_display l = Done t <-> inner_text (il_items l) (il_params l) t.
Proof.
  rewrite list_displays. unfold cl_to_string. rewrite inner_text_iff. destruct l as [its p]. cbn [il_items il_params].
  destruct (ser_inner_list (InnerList its p)) as [x|]; cbn [unwrap]; split; congruence.
Qed.
Lemma input_text (si : signature_input) (t : str) : si_display si = Done t <->
  exists sp, key_text (si_label si) (si_label si) /\ inner_text (il_items (si_list si)) (il_params (si_list si)) sp /\ t = si_label si ++ $"=" ++ sp.
Proof.
  rewrite input_displays. unfold si_to_string, ser_dict1. destruct si as [label [its p]]. cbn [si_label si_list il_items il_params].
  split.
  - destruct (ser_key label) as [k|] eqn:K; [|discriminate]. destruct (ser_inner_list (InnerList its p)) as [sp|] eqn:E; [|discriminate].
    cbn [unwrap]. intro H. injection H as <-. pose proof K as K'. apply ser_key_some in K'. destruct K' as (-> & _).
    exists sp. split; [now apply key_text_iff|]. split; [now apply inner_text_iff|reflexivity].
  - intros (sp & K & I & ->). apply key_text_iff in K. apply inner_text_iff in I. rewrite K, I. reflexivity.
Qed.
Lemma list_back (x : inner_list) : cl_try_from_list (cl_as_list x) = Ok x.
Proof. reflexivity. Qed.
Lemma same_text (l : inner_list) (si : signature_input) : cl_display l = cl_to_string l /\ si_display si = si_to_string si.
Proof. split; [apply list_displays|apply input_displays]. Qed.

Lemma made_of_items :
  (forall h, header_name h -> comp_from_item (Item (BString h) []) = Done (comp_of_header h))
  /\ (forall i n, it_bare i = BString ("@"%char :: n) -> comp_from_item i = Done (comp_of_derived (dc_from_item i)))
  /\ (forall d, comp_to_item (comp_of_derived d) = dc_to_item d) /\ (forall d, dc_from_item (dc_to_item d) = d).
Proof.
  split; [|split; [|split; [reflexivity|now intros []]]].
  - intros h H. apply (item_of_component (CHeader h)). exact H.
  - intros i n E. apply reads_as_iff. unfold comp_of_derived, dc_from_item. left. now exists n.
Qed.
Lemma partial_orders :
  (forall (a b : component) (s t : str), prints a s -> prints b t ->
     exists o, comp_partial_cmp a b = Done (Some o) /\ (o = Lt <-> before s t) /\ (o = Eq <-> s = t) /\ (o = Gt <-> before t s))
  /\ (forall a b, comp_partial_cmp a b = Panic <-> ~ (exists t, prints a t) \/ ~ (exists t, prints b t))
  /\ (forall a b : derived, dc_partial_cmp a b = Some (dc_cmp a b)).
Proof.
  split; [|split; [|reflexivity]].
  - intros a b s t A B. unfold comp_partial_cmp. destruct (comp_order a b s t A B) as (L & E & G).
    destruct (comp_cmp a b) as [o|] eqn:C.
    + exists o. split; [reflexivity|]. rewrite <- L, <- E, <- G. repeat split; congruence.
    + exfalso. apply comp_cmp_panic in C. destruct C as [C|C]; apply C; eauto.
  - intros a b. rewrite <- comp_cmp_panic. unfold comp_partial_cmp. now destruct (comp_cmp a b).
Qed.
