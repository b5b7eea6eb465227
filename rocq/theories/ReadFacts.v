(** Reading Signature-Input values: [CanonicalizeConfig] from text, against the grammar. *)
From Verif Require Export SpecVerify GrammarFacts CanonFacts.

(** ** Reading Signature-Input *)
Lemma lower_of_iff (c c' : ascii) : lower_of c c' <-> c' = to_lower c.
Proof.
  unfold lower_of, to_lower, is_upper, in_range. fold (code c).
  destruct ((65 <=? code c)%N && (code c <=? 90)%N) eqn:E; [|reflexivity].
  assert (code c + 32 < 256)%N as X by lia. split; intro H.
  - apply code_inj. rewrite code_of by lia. exact H.
  - subst c'. fold (code (ascii_of_N (code c + 32))). now rewrite code_of by lia.
Qed.
Lemma Forall2_lower (n h : str) : Forall2 lower_of n h <-> h = map to_lower n.
Proof.
  split.
  - induction 1 as [|c c' n h H _ IH]; [reflexivity|]. apply lower_of_iff in H. cbn [map]. now rewrite H, IH.
  - intros ->. induction n as [|c n IH]; constructor; [now apply lower_of_iff|exact IH].
Qed.
Lemma field_name_iff (n h : str) : hname_parse n = Some h <-> field_name n /\ Forall2 lower_of n h.
Proof.
  rewrite Forall2_lower. unfold hname_parse, field_name.
  assert (E : Forall tchar n <-> forallb is_tchar n = true) by (apply forall_iff; intro; apply tchar_iff).
  rewrite E. destruct n as [|x n]; cbn [negb andb].
  - split; [discriminate|]. intros [(H & _) _]. congruence.
  - destruct (N.leb_spec (N.of_nat (List.length (x :: n))) 65535) as [L|L]; cbn [andb].
    + destruct (forallb is_tchar (x :: n)) eqn:F.
      * split; [intro H; injection H as <-; repeat split; [discriminate|exact L]|]. now intros [_ ->].
      * split; [discriminate|]. intros [(_ & _ & H) _]. congruence.
    + split; [discriminate|]. intros [(_ & H & _) _]. lia.
Qed.
Lemma reads_as_iff (i : item) (c : component) : comp_from_item i = Done c <-> reads_as i c.
Proof.
  unfold comp_from_item, reads_as. destruct (as_str (it_bare i)) as [name|] eqn:E; cbn [unwrap obind].
  - assert (B : it_bare i = BString name) by (destruct (it_bare i); cbn in E; congruence).
    destruct (starts_with $"@" name) eqn:Sw.
    + apply starts_with_spec in Sw. destruct Sw as (n & ->). change ($"@" ++ n) with ("@"%char :: n) in *.
      split.
      * intro H. injection H as <-. left. eauto.
      * intros [(n' & B' & ->)|(n' & h & B' & (_ & _ & T) & _)]; [reflexivity|]. rewrite B in B'. injection B' as <-.
        inversion T as [|? ? T1]; subst. apply tchar_iff in T1. discriminate.
    + destruct (hname_parse name) as [h|] eqn:P; cbn [unwrap obind].
      * split.
        -- intro H. injection H as <-. right. exists name, h. apply field_name_iff in P. destruct P. repeat split; try assumption; apply H.
        -- intros [(n' & B' & ->)|(n' & h' & B' & F & L & ->)].
           ++ rewrite B in B'. injection B' as ->. discriminate.
           ++ rewrite B in B'. injection B' as <-. assert (P' : hname_parse name = Some h') by (apply field_name_iff; split; assumption).
              congruence.
      * split; [discriminate|]. intros [(n' & B' & ->)|(n' & h' & B' & F & L & ->)].
        -- rewrite B in B'. injection B' as ->. discriminate.
        -- rewrite B in B'. injection B' as <-. assert (P' : hname_parse name = Some h') by (apply field_name_iff; split; assumption).
           congruence.
  - split; [discriminate|]. intros [(n' & B' & _)|(n' & h' & B' & _)]; rewrite B' in E; discriminate.
Qed.
Lemma omap_reads (l : list item) (cs : list component) : omap comp_from_item l = Done cs <-> Forall2 reads_as l cs.
Proof.
  revert cs. induction l as [|i l IH]; intro cs; cbn [omap].
  - split; [intro H; injection H as <-; constructor|]. intro H. inversion H. reflexivity.
  - destruct (comp_from_item i) as [c|] eqn:E; cbn [obind].
    + destruct (omap comp_from_item l) as [cs'|] eqn:F; cbn [obind].
      * split.
        -- intro H. injection H as <-. constructor; [now apply reads_as_iff|now apply IH].
        -- intro H. inversion H as [|? c' ? cs'' H1 H2]; subst. apply reads_as_iff in H1. apply IH in H2. congruence.
      * split; [discriminate|]. intro H. inversion H as [|? c' ? cs'' H1 H2]; subst. apply IH in H2. discriminate.
    + split; [discriminate|]. intro H. inversion H as [|? c' ? cs'' H1 H2]; subst. apply reads_as_iff in H1. congruence.
Qed.
Lemma first_member_iff (s label : str) (items : list item) (p : list (str * bare)) :
  first_member s label items p <-> exists others, parse_dictionary s = Some ((label, LEInner (InnerList items p)) :: others).
Proof. unfold first_member. split; intros [o H]; exists o; now apply parse_dictionary_iff. Qed.
Lemma cc_parse_iff (s : str) (cc : canon_config) : cc_parse s = Done (Ok cc) <-> input_reads s cc.
Proof.
  unfold cc_parse, si_parse, input_reads. split.
  - destruct (parse_dictionary s) as [[|[label [it|[items p]]] rest]|] eqn:D; try discriminate.
    unfold cc_from_signature_input. cbn [si_list si_label il_items il_params].
    destruct (omap comp_from_item items) as [cs|] eqn:E; cbn [obind]; [|discriminate].
    intro H. injection H as <-. exists items. cbn [cc_params cc_components cc_label].
    split; [apply first_member_iff; exists rest; exact D|split; [discriminate|now apply omap_reads]].
  - intros (items & M & L & F). apply first_member_iff in M. destruct M as [rest E].
    rewrite E. unfold cc_from_signature_input. cbn [si_list si_label il_items il_params].
    apply omap_reads in F. rewrite F. cbn [obind]. destruct cc as [[l|] cs p]; [reflexivity|cbn in L; congruence].
Qed.
Lemma input_reads_unique (s : str) (a b : canon_config) : input_reads s a -> input_reads s b -> a = b.
Proof. rewrite <- !cc_parse_iff. congruence. Qed.
Lemma input_reads_rep (s : str) (cc : canon_config) : input_reads s cc -> config_rep cc.
Proof. intro H. apply cc_parse_iff in H. exact (cc_parse_rep s cc H). Qed.
Lemma cc_parse_not_ok (s : str) :
  (forall cc, ~ input_reads s cc) <->
  ~ exists label items p, first_member s label items p /\ Forall (fun i => exists c, reads_as i c) items.
Proof.
  split.
  - intros H (label & items & p & M & F).
    assert (X : exists cs, Forall2 reads_as items cs).
    { clear M. induction F as [|i l (c & Hc) _ (cs & IH)]; [exists []; constructor|]. exists (c :: cs). now constructor. }
    destruct X as (cs & X). apply (H (CanonConfig (Some label) cs p)). exists items.
    split; [exact M|]. split; [discriminate|exact X].
  - intros H cc P. destruct P as (items & M & _ & F). apply H.
    exists (cc_get_label cc), items, (cc_params cc). split; [exact M|].
    clear M. induction F as [|i c l cs Hc _ IH]; constructor; eauto.
Qed.

(** ** All outcomes (C53) *)
Lemma dictionary_unique (s : str) (d d' : dictionary) : dictionary_reads s d -> dictionary_reads s d' -> d = d'.
Proof. rewrite <- !parse_dictionary_iff. congruence. Qed.
Lemma item_field_unique (s : str) (i j : item) : item_field_reads s i -> item_field_reads s j -> i = j.
Proof. rewrite <- !parse_item_field_iff. congruence. Qed.
Lemma si_parse_outcomes (s : str) :
  (forall label l, si_parse s = Ok (SignatureInput label l) <-> exists others, dictionary_reads s ((label, LEInner l) :: others))
  /\ (si_parse s = Err ESignatureInputParseError <-> forall d, ~ dictionary_reads s d)
  /\ (si_parse s = Err ESignatureInputError <->
      dictionary_reads s [] \/ exists key i others, dictionary_reads s ((key, LEItem i) :: others))
  /\ (forall e, si_parse s = Err e -> e = ESignatureInputParseError \/ e = ESignatureInputError).
Proof.
  unfold si_parse.
  assert (X : forall d, parse_dictionary s = Some d <-> dictionary_reads s d) by (intro; apply parse_dictionary_iff).
  destruct (parse_dictionary s) as [d|] eqn:P.
  - assert (D : dictionary_reads s d) by now apply X.
    assert (U : forall d', dictionary_reads s d' -> d' = d) by (intros d' H; eapply dictionary_unique; eassumption).
    destruct d as [|[k [i|l]] others].
    + split; [intros label l; split; [discriminate|intros [o H]; apply U in H; discriminate]|].
      split; [split; [discriminate|intro H; exfalso; now apply (H _ D)]|].
      split; [split; [intros _; now left|reflexivity]|]. intros e H. injection H as <-. now right.
    + split; [intros label l; split; [discriminate|intros [o H]; apply U in H; discriminate]|].
      split; [split; [discriminate|intro H; exfalso; now apply (H _ D)]|].
      split; [split; [intros _; right; eauto|reflexivity]|]. intros e H. injection H as <-. now right.
    + split; [intros label l'; split; [intro H; injection H as <- <-; eauto|intros [o H]; apply U in H; now injection H as -> -> _]|].
      split; [split; [discriminate|intro H; exfalso; now apply (H _ D)]|].
      split; [split; [discriminate|intros [H|(key & i & o & H)]; apply U in H; discriminate]|]. discriminate.
  - assert (N : forall d, ~ dictionary_reads s d) by (intros d H; apply X in H; discriminate).
    split; [intros label l; split; [discriminate|intros [o H]; now apply N in H]|].
    split; [split; [intros _; exact N|reflexivity]|].
    split; [split; [discriminate|intros [H|(key & i & o & H)]; now apply N in H]|]. intros e H. injection H as <-. now left.
Qed.
Lemma cc_parse_panic (s : str) : cc_parse s = Panic <->
  exists label items p i, first_member s label items p /\ In i items /\ ~ exists c, reads_as i c.
Proof.
  assert (O : forall l, omap comp_from_item l = Panic <-> exists i, In i l /\ ~ exists c, reads_as i c).
  { induction l as [|x l IH]; cbn [omap]; [split; [discriminate|intros (i & [] & _)]|].
    destruct (comp_from_item x) as [c|] eqn:E; cbn [obind].
    - destruct (omap comp_from_item l) as [cs|] eqn:F; cbn [obind].
      + split; [discriminate|]. intros (i & [<-|H] & N); [destruct N; exists c; now apply reads_as_iff|].
        assert (Z : Done cs = Panic) by (apply IH; eauto). discriminate.
      + split; [|reflexivity]. intros _. destruct (proj1 IH eq_refl) as (i & H & N). exists i. split; [now right|exact N].
    - split; [|reflexivity]. intros _. exists x. split; [now left|]. intros [c H]. apply reads_as_iff in H. congruence. }
  unfold cc_parse. pose proof (si_parse_outcomes s) as (P1 & _). destruct (si_parse s) as [[label [items p]]|e] eqn:P.
  - unfold cc_from_signature_input. cbn [si_list si_label il_items il_params].
    destruct (proj1 (P1 label (InnerList items p)) eq_refl) as [others D].
    destruct (omap comp_from_item items) as [cs|] eqn:E; cbn [obind].
    + split; [discriminate|]. intros (l' & i' & p' & i & [o' D'] & H & N).
      pose proof (dictionary_unique _ _ _ D D') as U. injection U as <- <- <- _.
      assert (F : omap comp_from_item items = Panic) by (apply O; eauto). congruence.
    + split; [|reflexivity]. intros _. apply O in E. destruct E as (i & H & N).
      exists label, items, p, i. split; [now exists others|]. auto.
  - split; [discriminate|]. intros (l' & i' & p' & i & [o' D'] & _).
    assert (F : Err e = Ok (SignatureInput l' (InnerList i' p')) :> result signature_input error) by (apply P1; eauto).
    discriminate.
Qed.
Lemma comp_from_str_derived (s : str) (d : derived) : comp_from_str s = Ok (CDerived d) <->
  (exists s', s = [ch_quote; "@"%char] ++ s') /\ item_field_reads s (dc_item d).
Proof.
  unfold comp_from_str, dc_from_str. split.
  - destruct (_ || _); [|destruct (hname_parse s); discriminate].
    destruct (starts_with _ s) eqn:Q; [|discriminate]. apply starts_with_spec in Q.
    destruct (parse_item_field s) as [i|] eqn:P; [|discriminate]. intro H. injection H as <-.
    split; [exact Q|]. now apply parse_item_field_iff.
  - intros [[s' ->] H]. apply parse_item_field_iff in H. cbn [app starts_with] in *.
    change (Ascii.eqb ch_quote "@") with false. change (Ascii.eqb ch_quote ch_quote) with true.
    change (Ascii.eqb "@" "@") with true. cbn [andb orb]. rewrite H. now destruct d.
Qed.
