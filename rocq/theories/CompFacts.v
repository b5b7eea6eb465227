(** Proofs about equality, order, printing and parsing of components (for PropComp.v). *)
From Verif Require Export HistFacts MoreVerify.
From Coq Require Import Sorted.

(** ** Equality *)
Lemma equal_decimal_iff (a b : decimal) : equal_decimal a b <-> dec_cmp a b = Eq.
Proof. unfold equal_decimal, dec_cmp, dec_Z. symmetry. apply Z.compare_eq_iff. Qed.
Lemma equal_bare_iff (a b : bare) : equal_bare a b <-> bare_eqb a b = true.
Proof.
  destruct a as [x|x|x|x|x|x], b as [y|y|y|y|y|y]; cbn [equal_bare bare_eqb]; try (split; [discriminate || contradiction|discriminate]).
  - rewrite equal_decimal_iff. destruct (dec_cmp x y); split; congruence.
  - rewrite Z.eqb_eq. split; congruence.
  - rewrite str_eqb_eq. split; congruence.
  - rewrite str_eqb_eq. split; congruence.
  - rewrite Bool.eqb_true_iff. split; congruence.
  - rewrite str_eqb_eq. split; congruence.
Qed.
Lemma equal_decimal_refl (a : decimal) : equal_decimal a a.
Proof. unfold equal_decimal. reflexivity. Qed.
Lemma equal_decimal_sym (a b : decimal) : equal_decimal a b -> equal_decimal b a.
Proof. unfold equal_decimal. intro H. symmetry. exact H. Qed.
Lemma equal_decimal_trans (a b c : decimal) : equal_decimal a b -> equal_decimal b c -> equal_decimal a c.
Proof.
  unfold equal_decimal. cbv zeta. intros H1 H2.
  set (A := (if d_neg a then _ else _)%Z) in *. set (B := (if d_neg b then _ else _)%Z) in *. set (C := (if d_neg c then _ else _)%Z) in *.
  assert (Pa : (0 < 10 ^ Z.of_nat (d_scale a))%Z) by (apply Z.pow_pos_nonneg; lia).
  assert (Pb : (0 < 10 ^ Z.of_nat (d_scale b))%Z) by (apply Z.pow_pos_nonneg; lia).
  assert (Pc : (0 < 10 ^ Z.of_nat (d_scale c))%Z) by (apply Z.pow_pos_nonneg; lia).
  apply (Z.mul_cancel_r _ _ (10 ^ Z.of_nat (d_scale b))); [lia|]. nia.
Qed.
Lemma equal_bare_refl (a : bare) : equal_bare a a.
Proof. destruct a; cbn; reflexivity. Qed.
Lemma equal_bare_sym (a b : bare) : equal_bare a b -> equal_bare b a.
Proof. destruct a, b; cbn; try contradiction; try congruence; try apply equal_decimal_sym. Qed.
Lemma equal_bare_trans (a b c : bare) : equal_bare a b -> equal_bare b c -> equal_bare a c.
Proof. destruct a, b, c; cbn; try contradiction; try congruence; try apply equal_decimal_trans. Qed.
Lemma equal_params_refl (p : params) : equal_params p p.
Proof. intro k. destruct (value_of k p); [apply equal_bare_refl|exact I]. Qed.
Lemma equal_params_sym (p q : params) : equal_params p q -> equal_params q p.
Proof. intros H k. specialize (H k). destruct (value_of k p), (value_of k q); try exact H. now apply equal_bare_sym. Qed.
Lemma equal_params_trans (p q r : params) : equal_params p q -> equal_params q r -> equal_params p r.
Proof.
  intros H1 H2 k. specialize (H1 k). specialize (H2 k). destruct (value_of k p), (value_of k q), (value_of k r); try contradiction; try exact I.
  eapply equal_bare_trans; eassumption.
Qed.
Lemma equal_component_refl (a : component) : equal_component a a.
Proof. destruct a; cbn; [split; [apply equal_bare_refl|apply equal_params_refl]|reflexivity]. Qed.
Lemma equal_component_sym (a b : component) : equal_component a b -> equal_component b a.
Proof.
  destruct a, b; cbn; try contradiction; [|congruence]. intros [H1 H2]. split; [now apply equal_bare_sym|now apply equal_params_sym].
Qed.
Lemma equal_component_trans (a b c : component) : equal_component a b -> equal_component b c -> equal_component a c.
Proof.
  destruct a, b, c; cbn; try contradiction; [|congruence]. intros [H1 H2] [H3 H4].
  split; [eapply equal_bare_trans; eassumption|eapply equal_params_trans; eassumption].
Qed.
Lemma imap_get_keys {V} (m : imap V) (k : str) : imap_get m k = None <-> ~ In k (keys m).
Proof.
  induction m as [|[a v] m IH]; cbn [imap_get keys map fst In]; [tauto|]. destruct (str_eqb a k) eqn:E.
  - apply str_eqb_eq in E. subst a. split; [discriminate|]. intro H. exfalso. apply H. now left.
  - apply str_eqb_neq in E. fold (keys m). rewrite IH. tauto.
Qed.
Lemma imap_get_in {V} (m : imap V) (k : str) (v : V) : NoDup (keys m) -> In (k, v) m -> imap_get m k = Some v.
Proof.
  induction m as [|[a w] m IH]; [intros _ []|]. intros N I. inversion N as [|? ? N1 N2]; subst. cbn [imap_get]. destruct I as [E|I].
  - injection E as -> ->. now rewrite str_eqb_refl.
  - destruct (str_eqb a k) eqn:X; [|now apply IH]. apply str_eqb_eq in X. subst a. exfalso. apply N1. now apply (in_map fst) in I.
Qed.
Lemma imap_get_some {V} (m : imap V) (k : str) (v : V) : imap_get m k = Some v -> In (k, v) m.
Proof.
  induction m as [|[a w] m IH]; [discriminate|]. cbn [imap_get]. destruct (str_eqb a k) eqn:X; intro H.
  - apply str_eqb_eq in X. injection H as ->. subst. now left. - right. now apply IH.
Qed.
Lemma keys_length {V} (m : imap V) : List.length (keys m) = List.length m.
Proof. apply map_length. Qed.
Lemma equal_params_iff (p q : params) : NoDup (keys p) -> NoDup (keys q) -> (equal_params p q <-> params_eqb p q = true).
Proof.
  intros Np Nq. unfold params_eqb. rewrite andb_true_iff, Nat.eqb_eq, forallb_forall. split.
  - intro H. assert (Kpq : incl (keys p) (keys q)).
    { intros k I. specialize (H k). rewrite !value_of_imap in H. destruct (imap_get q k) eqn:E.
      - destruct (in_dec (list_eq_dec ascii_dec) k (keys q)) as [J|J]; [exact J|]. apply imap_get_keys in J. congruence.
      - destruct (imap_get p k) eqn:F; [contradiction|]. apply imap_get_keys in F. contradiction. }
    assert (Kqp : incl (keys q) (keys p)).
    { intros k I. specialize (H k). rewrite !value_of_imap in H. destruct (imap_get p k) eqn:E.
      - destruct (in_dec (list_eq_dec ascii_dec) k (keys p)) as [J|J]; [exact J|]. apply imap_get_keys in J. congruence.
      - destruct (imap_get q k) eqn:F; [contradiction|]. apply imap_get_keys in F. contradiction. }
    split.
    + pose proof (NoDup_incl_length Np Kpq). pose proof (NoDup_incl_length Nq Kqp). rewrite !keys_length in *. lia.
    + intros [k v] I. cbn [fst snd]. specialize (H k). rewrite !value_of_imap in H. rewrite (imap_get_in p k v Np I) in H.
      destruct (imap_get q k); [|contradiction]. now apply equal_bare_iff.
  - intros [L H] k. rewrite !value_of_imap. destruct (imap_get p k) as [v|] eqn:E.
    + apply imap_get_some in E. apply H in E. cbn [fst snd] in E. destruct (imap_get q k); [|discriminate]. now apply equal_bare_iff.
    + destruct (imap_get q k) as [w|] eqn:F; [|exact I]. exfalso. apply imap_get_keys in E. apply E.
      assert (K : incl (keys p) (keys q)).
      { intros k' I'. apply in_map_iff in I'. destruct I' as ([k1 v1] & <- & I'). apply H in I'. cbn [fst snd] in *.
        destruct (imap_get q k1) eqn:G; [|discriminate]. apply imap_get_some in G. now apply (in_map fst) in G. }
      apply (NoDup_length_incl Np) in K; [|rewrite !keys_length; lia].
      apply K. apply imap_get_some in F. now apply (in_map fst) in F.
Qed.
Lemma equal_component_iff (a b : component) : distinct_params a -> distinct_params b -> (equal_component a b <-> comp_eqb a b = true).
Proof.
  destruct a as [d|h], b as [e|k]; cbn [distinct_params equal_component comp_eqb]; intros Pa Pb; try (split; [contradiction|discriminate]).
  - unfold dc_eqb, item_eqb. rewrite andb_true_iff, equal_bare_iff, (equal_params_iff _ _ Pa Pb). reflexivity.
  - symmetry. apply str_eqb_eq.
Qed.
Lemma equality_equivalence : (forall a, distinct_params a -> comp_eqb a a = true)
  /\ (forall a b, distinct_params a -> distinct_params b -> comp_eqb a b = true -> comp_eqb b a = true)
  /\ (forall a b c, distinct_params a -> distinct_params b -> distinct_params c -> comp_eqb a b = true -> comp_eqb b c = true -> comp_eqb a c = true).
Proof.
  split; [|split].
  - intros a P. apply equal_component_iff; try assumption. apply equal_component_refl.
  - intros a b Pa Pb H. apply equal_component_iff in H; try assumption. apply equal_component_iff; try assumption. now apply equal_component_sym.
  - intros a b c Pa Pb Pc H1 H2. apply equal_component_iff in H1; try assumption. apply equal_component_iff in H2; try assumption.
    apply equal_component_iff; try assumption. eapply equal_component_trans; eassumption.
Qed.

(** ** Printing *)
(** The printed form of a component. *)
Lemma prints_iff (c : component) (t : str) : prints c t <-> comp_to_string c = Done t.
Proof.
  destruct c as [d|h]; cbn [prints comp_to_string].
  - rewrite item_text_iff. unfold dc_to_string. symmetry. apply unwrap_done.
  - split; congruence.
Qed.
Lemma rep_prints (c : component) : component_rep c -> exists t, prints c t.
Proof.
  intro R. destruct c as [d|h]; [|now exists h].
  apply component_rep_good in R. cbn [comp_to_item] in R. destruct (ser_item_good _ R) as [t T]. exists t. now apply item_text_iff.
Qed.
Lemma derived_text_head (d : derived) (n t : str) : it_bare (dc_item d) = BString ("@"%char :: n) -> item_text (dc_item d) t ->
  exists t', t = ch_quote :: "@"%char :: t'.
Proof.
  intros E (a & b & A & B & ->). rewrite E in A. cbn [bare_text] in A. destruct A as [_ ->]. cbn [map List.concat]. eexists. reflexivity.
Qed.
Lemma prints_inj (a b : component) (t : str) : component_rep a -> component_rep b -> prints a t -> prints b t -> same_component a b.
Proof.
  intros Ra Rb Pa Pb. destruct a as [d|h], b as [e|k]; cbn [prints same_component] in *.
  - assert (X : same_item (canon_item (dc_item d)) (canon_item (dc_item e))).
    { apply item_text_iff in Pa. apply item_text_iff in Pb.
      pose proof (component_rep_good _ Ra) as Ga. pose proof (component_rep_good _ Rb) as Gb. cbn [comp_to_item] in Ga, Gb.
      pose proof (parse_ser_item_field _ _ Pa (item_good_ne _ Ga)) as Xa. pose proof (parse_ser_item_field _ _ Pb (item_good_ne _ Gb)) as Xb.
      assert (E : canon_item (dc_item d) = canon_item (dc_item e)) by congruence. rewrite E.
      split; [apply same_bare_refl|apply same_params_refl]. }
    pose proof (component_rep_same _ Ra) as Sa. pose proof (component_rep_same _ Rb) as Sb. cbn [comp_to_item] in Sa, Sb.
    exact (same_item_trans _ _ _ (same_item_sym _ _ Sa) (same_item_trans _ _ _ X Sb)).
  - destruct Ra as (n & E & _). destruct (derived_text_head d n t E Pa) as [t' ->]. subst k.
    destruct Rb as (_ & _ & F). inversion F as [|? ? [T _] _]; subst. apply tchar_iff in T. discriminate.
  - destruct Rb as (n & E & _). destruct (derived_text_head e n t E Pb) as [t' ->]. subst h.
    destruct Ra as (_ & _ & F). inversion F as [|? ? [T _] _]; subst. apply tchar_iff in T. discriminate.
  - congruence.
Qed.

(** ** Order of the printed forms *)
Lemma before_iff (a b : str) : before a b <-> str_cmp a b = Lt.
Proof.
  split.
  - induction 1 as [|c d s t H|c s t _ IH]; cbn [str_cmp]; [reflexivity| |].
    + apply N.compare_lt_iff in H. unfold code. now rewrite H.
    + now rewrite N.compare_refl.
  - revert b. induction a as [|x a IH]; intros [|y b] H; cbn [str_cmp] in H; try discriminate; [constructor|].
    destruct (N.compare_spec (code x) (code y)) as [E|E|E]; try discriminate.
    + apply code_inj in E. subst y. apply before_tail. now apply IH.
    + now apply before_head.
Qed.
Lemma before_irrefl (a : str) : ~ before a a.
Proof. rewrite before_iff, str_cmp_refl. discriminate. Qed.
Lemma before_trans (a b c : str) : before a b -> before b c -> before a c.
Proof. rewrite !before_iff. apply str_cmp_lt_trans. Qed.
Lemma before_total (a b : str) : before a b \/ a = b \/ before b a.
Proof.
  rewrite !before_iff, <- str_cmp_eq, (str_cmp_antisym a b). destruct (str_cmp a b); auto.
Qed.
Lemma str_cmp_gt (a b : str) : str_cmp a b = Gt <-> before b a.
Proof. rewrite before_iff, (str_cmp_antisym a b). destruct (str_cmp a b); cbn; split; congruence. Qed.

Lemma comp_cmp_prints (a b : component) (s t : str) : prints a s -> prints b t -> comp_cmp a b = Done (str_cmp s t).
Proof. rewrite !prints_iff. unfold comp_cmp. now intros -> ->. Qed.
Lemma comp_cmp_done (a b : component) (o : comparison) : comp_cmp a b = Done o ->
  exists s t, prints a s /\ prints b t /\ o = str_cmp s t.
Proof.
  unfold comp_cmp. destruct (comp_to_string a) as [s|] eqn:A; [|discriminate]. destruct (comp_to_string b) as [t|] eqn:B; [|discriminate].
  cbn [obind]. intro H. injection H as <-. exists s, t. now rewrite !prints_iff.
Qed.
Lemma comp_cmp_panic (a b : component) : comp_cmp a b = Panic <-> ~ (exists t, prints a t) \/ ~ (exists t, prints b t).
Proof.
  unfold comp_cmp. split.
  - destruct (comp_to_string a) as [s|] eqn:A.
    + destruct (comp_to_string b) as [t|] eqn:B; [discriminate|]. intros _. right. intros [t T]. apply prints_iff in T. congruence.
    + intros _. left. intros [t T]. apply prints_iff in T. congruence.
  - intros [H|H].
    + destruct (comp_to_string a) as [s|] eqn:A; [|reflexivity]. exfalso. apply H. exists s. now apply prints_iff.
    + destruct (comp_to_string a) as [s|] eqn:A; [|reflexivity]. cbn [obind]. destruct (comp_to_string b) as [t|] eqn:B; [|reflexivity].
      exfalso. apply H. exists t. now apply prints_iff.
Qed.
Lemma prints_fun (c : component) (s t : str) : prints c s -> prints c t -> s = t.
Proof. rewrite !prints_iff. congruence. Qed.

(** ** The set of required components *)
(** Sorted, repetitions allowed. *)
Definition not_after (a b : str) : Prop := ~ before b a.
Lemma not_after_trans (a b c : str) : not_after a b -> not_after b c -> not_after a c.
Proof.
  unfold not_after. intros H1 H2 H. destruct (before_total a b) as [X|[->|X]]; [|contradiction|contradiction].
  apply H2. eapply before_trans; eassumption.
Qed.
Lemma sort_insert_sorted (x : component) (l s : list component) (t : str) (ts : list str) :
  sort_insert x l = Done s -> prints x t -> Forall2 prints l ts -> Sorted not_after ts ->
  exists ts', Forall2 prints s ts' /\ Sorted not_after ts' /\ (forall u, HdRel not_after u ts -> not_after u t -> HdRel not_after u ts').
Proof.
  intros H P F. revert s H. induction F as [|y u l ts Py F IH]; cbn [sort_insert]; intros s H So.
  - injection H as <-. exists [t]. split; [now repeat constructor|]. split; [now repeat constructor|]. intros u _ N. now constructor.
  - rewrite (comp_cmp_prints x y t u P Py) in H. cbn [obind] in H. destruct (str_cmp t u) eqn:E.
    + injection H as <-. exists (t :: u :: ts). split; [now repeat constructor|]. split; [|intros; now constructor].
      constructor; [exact So|]. constructor. apply str_cmp_eq in E. subst u. exact (before_irrefl t).
    + injection H as <-. exists (t :: u :: ts). split; [now repeat constructor|]. split; [|intros; now constructor].
      constructor; [exact So|]. constructor. apply before_iff in E. intro B. apply (before_irrefl t). eapply before_trans; eassumption.
    + destruct (sort_insert x l) as [s'|]; [|discriminate]. cbn [obind] in H. injection H as <-.
      inversion So as [|? ? So' Hd]; subst. destruct (IH s' eq_refl So') as (ts' & F' & So'' & G).
      exists (u :: ts'). split; [now constructor|]. split.
      * constructor; [exact So''|]. apply G; [exact Hd|]. apply str_cmp_gt in E. intro B.
        apply (before_irrefl u). eapply before_trans; eassumption.
      * intros v Hv _. inversion Hv; subst. now constructor.
Qed.
Lemma sort_components_sorted (l s : list component) : Forall (fun c => exists t, prints c t) l -> sort_components l = Done s ->
  exists ts, Forall2 prints s ts /\ Sorted not_after ts.
Proof.
  intro F. revert s. induction F as [|x l [t P] F IH]; cbn [sort_components]; intros s H.
  - injection H as <-. exists []. split; constructor.
  - destruct (sort_components l) as [s'|]; [|discriminate]. cbn [obind] in H. destruct (IH s' eq_refl) as (ts & F' & So).
    destruct (sort_insert_sorted x s' s t ts H P F' So) as (ts' & X & Y & _). eauto.
Qed.
Lemma sort_insert_printable (x : component) (l : list component) : (exists t, prints x t) -> Forall (fun c => exists t, prints c t) l ->
  exists s, sort_insert x l = Done s.
Proof.
  intros [t P] F. induction F as [|y l [u U] F [s IH]]; cbn [sort_insert]; [eauto|].
  rewrite (comp_cmp_prints x y t u P U). cbn [obind]. rewrite IH. destruct (str_cmp t u); cbn; eauto.
Qed.
Lemma sort_components_printable (l : list component) : Forall (fun c => exists t, prints c t) l -> exists s, sort_components l = Done s.
Proof.
  intro F. induction F as [|x l P F [s IH]]; cbn [sort_components]; [eauto|]. rewrite IH. cbn [obind].
  apply sort_insert_printable; [exact P|]. apply Forall_forall. intros y I. apply (sort_components_in l s y IH) in I.
  rewrite Forall_forall in F. now apply F.
Qed.
Lemma sort_insert_done (x y : component) (l s : list component) : sort_insert x (y :: l) = Done s -> (exists t, prints x t) /\ (exists t, prints y t).
Proof.
  cbn [sort_insert]. destruct (comp_cmp x y) as [o|] eqn:E; [|discriminate]. intros _. apply comp_cmp_done in E.
  destruct E as (a & b & A & B & _). eauto.
Qed.
Lemma sort_components_done (l s : list component) : sort_components l = Done s -> (2 <= List.length l)%nat -> Forall (fun c => exists t, prints c t) l.
Proof.
  revert s. induction l as [|x l IH]; cbn [sort_components List.length]; intros s H L; [lia|].
  destruct (sort_components l) as [s'|] eqn:E; [|discriminate]. cbn [obind] in H. destruct l as [|y l]; [cbn in L; lia|].
  destruct s' as [|z s'].
  { exfalso. apply (in_nil (a := y)). apply (sort_components_in (y :: l) [] y E). now left. }
  destruct (sort_insert_done x z s' s H) as [Px Pz]. constructor; [exact Px|].
  destruct l as [|w l]; [|apply (IH (z :: s') eq_refl); cbn; lia].
  cbn in E. injection E as <- <-. now repeat constructor.
Qed.
Lemma set_required_panic (c : verifying_config) (l : list component) :
  vc_set_required c l = Panic <-> (2 <= List.length l)%nat /\ exists q, In q l /\ ~ exists t, prints q t.
Proof.
  unfold vc_set_required. destruct (sort_components l) as [s|] eqn:E; cbn [obind].
  - split; [discriminate|]. intros [L (q & I & N)]. exfalso. apply N. pose proof (sort_components_done l s E L) as F.
    rewrite Forall_forall in F. now apply F.
  - split; [intros _|reflexivity]. split.
    + destruct l as [|x [|y l]]; [discriminate|discriminate|cbn; lia].
    + assert (X : ~ Forall (fun c => exists t, prints c t) l).
      { intro F. destruct (sort_components_printable l F) as [s S]. congruence. }
      apply Exists_exists. apply neg_Forall_Exists_neg; [|exact X].
      intro q. destruct (comp_to_string q) as [t|] eqn:T; [left; exists t; now apply prints_iff|right].
      intros [t U]. apply prints_iff in U. congruence.
Qed.

Lemma dedup_last_cons (x y : component) (l : list component) :
  dedup_last (x :: y :: l) = if comp_eqb x y then dedup_last (y :: l) else x :: dedup_last (y :: l).
Proof. reflexivity. Qed.
Lemma dedup_last_head (x : component) (l : list component) : exists y l', dedup_last (x :: l) = y :: l'.
Proof.
  revert x. induction l as [|z l IH]; intro x; [cbn; eauto|]. cbn [dedup_last]. destruct (comp_eqb x z); [apply IH|eauto].
Qed.
Lemma dedup_last_equal (l : list component) (x : component) : Forall distinct_params l -> In x l ->
  exists y, In y (dedup_last l) /\ equal_component x y.
Proof.
  intros F. revert x. induction F as [|a l Da F IH]; intros x I; [destruct I|]. destruct l as [|b l].
  - exists x. split; [exact I|apply equal_component_refl].
  - inversion F as [|? ? Db _]; subst. cbn [dedup_last]. destruct (comp_eqb a b) eqn:E.
    + destruct I as [<-|I]; [|now apply IH]. destruct (IH b (or_introl eq_refl)) as (y & Iy & Ey). exists y. split; [exact Iy|].
      apply equal_component_iff in E; try assumption. eapply equal_component_trans; eassumption.
    + destruct I as [<-|I]; [exists a; split; [now left|apply equal_component_refl]|].
      destruct (IH x I) as (y & Iy & Ey). exists y. split; [now right|exact Ey].
Qed.
Lemma same_bare_equal (a b : bare) : same_bare a b -> equal_bare a b.
Proof.
  destruct a as [x|x|x|x|x|x], b as [y|y|y|y|y|y]; cbn [same_bare equal_bare]; try contradiction; try congruence. intros [E H]. unfold equal_decimal. cbv zeta. rewrite E.
  assert (P : forall n, Z.of_N (10 ^ N.of_nat n) = (10 ^ Z.of_nat n)%Z). { intro n. rewrite N2Z.inj_pow. f_equal. lia. }
  rewrite <- !P. destruct (d_neg y); lia.
Qed.
Lemma same_component_equal (a b : component) : same_component a b -> equal_component a b.
Proof.
  destruct a as [d|h], b as [e|k]; cbn [same_component equal_component]; try contradiction; [|congruence]. intros [H1 H2].
  split; [now apply same_bare_equal|]. intro q. rewrite !value_of_imap. pose proof (same_params_get _ _ q H2) as G.
  destruct (imap_get (it_params (dc_item d)) q), (imap_get (it_params (dc_item e)) q); try contradiction; try exact I. now apply same_bare_equal.
Qed.
Lemma rep_distinct (c : component) : component_rep c -> distinct_params c.
Proof. destruct c as [d|h]; [|now intros]. intros (n & _ & _ & N & _). exact N. Qed.
Lemma dedup_last_increasing (l : list component) (ts : list str) : Forall component_rep l -> Forall2 prints l ts -> Sorted not_after ts ->
  exists ts', Forall2 prints (dedup_last l) ts' /\ increasing ts' /\ (forall u, HdRel not_after u ts -> HdRel not_after u ts').
Proof.
  intros R F. induction F as [|x t l ts P F IH]; intro So.
  - exists []. split; [constructor|]. split; [constructor|trivial].
  - inversion R as [|? ? Rx Rl]; subst. inversion So as [|? ? So' Hd]; subst.
    destruct (IH Rl So') as (ts' & F' & In' & G). destruct F as [|y u l ts Py F].
    + exists [t]. split; [now repeat constructor|]. split; [constructor|trivial].
    + rewrite dedup_last_cons. destruct (comp_eqb x y) eqn:E.
      * exists ts'. split; [exact F'|]. split; [exact In'|]. intros w Hw. apply G. inversion Hw; subst. inversion Hd; subst.
        constructor. eapply not_after_trans; eassumption.
      * destruct (dedup_last_head y l) as (z & l' & Z). rewrite Z in F'. inversion F' as [|? t2 ? ts2 Pz F2]; subst.
        exists (t :: t2 :: ts2). split; [constructor; [exact P|now rewrite Z]|]. split.
        -- constructor; [|exact In']. specialize (G t Hd). inversion G; subst.
           destruct (before_total t t2) as [B|[B|B]]; [exact B| |contradiction]. exfalso. subst t2.
           inversion So' as [|? ? _ Hu]; subst. inversion Hd as [|? ? Nu]; subst.
           (* z prints t, which is <= u <= t, so y prints t *)
           assert (Eu : u = t).
           { destruct (before_total u t) as [B|[B|B]]; [contradiction|exact B|]. exfalso.
             clear - Py F Pz Z So' B Rl.
             assert (X : In z (y :: l)). { apply dedup_last_sub. rewrite Z. now left. }
             assert (Y : Forall (not_after u) (u :: ts)).
             { apply Sorted_extends in So'; [constructor; [exact (before_irrefl u)|exact So']|]. intros a b c. apply not_after_trans. }
             assert (F2 : Forall2 prints (y :: l) (u :: ts)) by now constructor.
             clear - X Y F2 Pz B. induction F2 as [|a v m vs Pa F2 IH]; [destruct X|]. inversion Y as [|? ? N1 N2]; subst.
             destruct X as [->|X]; [|now apply IH]. rewrite (prints_fun z v t Pa Pz) in N1. contradiction. }
           subst u. inversion Rl as [|? ? Ry _]; subst.
           pose proof (prints_inj x y t Rx Ry P Py) as S. apply same_component_equal in S.
           apply equal_component_iff in S; [congruence|now apply rep_distinct|now apply rep_distinct].
        -- intros w Hw. inversion Hw; subst. now constructor.
Qed.
Lemma set_required_set (c c' : verifying_config) (l : list component) : Forall component_rep l -> vc_set_required c l = Done c' ->
  required_set l (vc_required c').
Proof.
  intros R H. unfold vc_set_required in H. destruct (sort_components l) as [s|] eqn:E; [|discriminate]. cbn [obind] in H. injection H as <-.
  cbn [vc_required]. assert (Rs : Forall component_rep s).
  { apply Forall_forall. intros x I. apply (sort_components_in l s x E) in I. rewrite Forall_forall in R. now apply R. }
  split; [|split].
  - intros x I. apply (sort_components_in l s x E). now apply dedup_last_sub.
  - intros x I. apply (sort_components_in l s x E) in I. apply dedup_last_equal; [|exact I]. revert Rs. apply Forall_impl. apply rep_distinct.
  - destruct (sort_components_sorted l s) with (2 := E) as (ts & F & So).
    { revert R. apply Forall_impl. apply rep_prints. }
    destruct (dedup_last_increasing s ts Rs F So) as (ts' & F' & I' & _). eauto.
Qed.
Lemma set_required_rep (c : verifying_config) (l : list component) : Forall component_rep l -> exists c', vc_set_required c l = Done c'.
Proof.
  intro R. destruct (vc_set_required c l) as [c'|] eqn:E; [eauto|]. apply set_required_panic in E. destruct E as [_ (q & I & N)].
  exfalso. apply N, rep_prints. rewrite Forall_forall in R. now apply R.
Qed.

(** ** C42: VerifyingConfig *)
Lemma last_some_cons {A B} (f : A -> option B) (l : list A) (x : A) :
  last_some f (x :: l) = match last_some f l with Some b => Some b | None => f x end.
Proof.
  induction l as [|y l IH] using rev_ind; [unfold last_some; cbn; now destruct (f x)|].
  rewrite app_comm_cons, !last_some_app, IH. now destruct (f y).
Qed.
Lemma verify_history_from (calls : list verify_call) (c0 c : verifying_config) : verify_ran c0 calls c ->
  vc_keys c = vc_keys c0
  /\ vc_digests c = or_default (vc_digests c0) (last_some v_digests calls)
  /\ vc_require_digest c = or_default (vc_require_digest c0) (last_some v_require_digest calls)
  /\ vc_validate_digest c = or_default (vc_validate_digest c0) (last_some v_validate_digest calls)
  /\ vc_validate_date c = or_default (vc_validate_date c0) (last_some v_validate_date calls)
  /\ vc_date_leeway c = or_default (vc_date_leeway c0) (last_some v_leeway calls)
  /\ match last_some v_required calls with
     | None => vc_required c = vc_required c0
     | Some l => Forall component_rep l -> required_set l (vc_required c)
     end.
Proof.
  induction 1 as [c|c x c' xs c'' H _ IH]; [repeat split|]. rewrite !last_some_cons.
  destruct IH as (I1 & I2 & I3 & I4 & I5 & I6 & I7).
  assert (J : match last_some v_required xs with
    | Some l => Forall component_rep l -> required_set l (vc_required c'')
    | None => vc_required c'' = vc_required c' end) by exact I7. clear I7.
  destruct x as [d|b|b|b|n|l]; cbn [verify_do] in H.
  1-5: injection H as <-; cbn in *;
    destruct (last_some v_digests xs), (last_some v_require_digest xs), (last_some v_validate_digest xs),
      (last_some v_validate_date xs), (last_some v_leeway xs), (last_some v_required xs); auto 20.
  assert (K : vc_keys c' = vc_keys c /\ vc_digests c' = vc_digests c /\ vc_require_digest c' = vc_require_digest c
    /\ vc_validate_digest c' = vc_validate_digest c /\ vc_validate_date c' = vc_validate_date c /\ vc_date_leeway c' = vc_date_leeway c).
  { unfold vc_set_required in H. destruct (sort_components l); [|discriminate]. cbn [obind] in H. injection H as <-. repeat split. }
  destruct K as (K1 & K2 & K3 & K4 & K5 & K6). rewrite K1 in I1. rewrite K2 in I2. rewrite K3 in I3. rewrite K4 in I4. rewrite K5 in I5. rewrite K6 in I6.
  cbn [v_digests v_require_digest v_validate_digest v_validate_date v_leeway v_required].
  split; [exact I1|]. split; [now destruct (last_some v_digests xs)|]. split; [now destruct (last_some v_require_digest xs)|].
  split; [now destruct (last_some v_validate_digest xs)|]. split; [now destruct (last_some v_validate_date xs)|]. split; [now destruct (last_some v_leeway xs)|].
  destruct (last_some v_required xs) as [l'|]; [exact J|]. intro R. rewrite J. now apply (set_required_set c c' l).
Qed.
Lemma verify_history (kp : key_provider) (calls : list verify_call) (c : verifying_config) : verify_ran (vc_new kp) calls c ->
  vc_keys c = kp
  /\ vc_digests c = or_default default_digest_provider (last_some v_digests calls)
  /\ vc_require_digest c = or_default true (last_some v_require_digest calls)
  /\ vc_validate_digest c = or_default true (last_some v_validate_digest calls)
  /\ vc_validate_date c = or_default true (last_some v_validate_date calls)
  /\ vc_date_leeway c = or_default (30 * 1000000000)%Z (last_some v_leeway calls)
  /\ match last_some v_required calls with
     | None => vc_required c = []
     | Some l => Forall component_rep l -> required_set l (vc_required c)
     end.
Proof. intro H. exact (verify_history_from calls (vc_new kp) c H). Qed.
Lemma verify_runs (calls : list verify_call) (c0 : verifying_config) :
  (exists c, verify_ran c0 calls c)
  <-> forall l q, In (VRequired l) calls -> In q l -> (2 <= List.length l)%nat -> exists t, prints q t.
Proof.
  revert c0. induction calls as [|x xs IH]; intro c0; [split; [intros _ l q []|intros _; exists c0; constructor]|].
  assert (D : (exists c, verify_ran c0 (x :: xs) c) <-> exists c', verify_do c0 x = Done c' /\ exists c, verify_ran c' xs c).
  { split.
    - intros [c H]. inversion H as [|? ? c' ? ? E H']; subst. eauto.
    - intros (c' & E & c & H). exists c. econstructor; eassumption. }
  rewrite D. clear D. destruct x as [d|b|b|b|n|l].
  1-5: cbn [verify_do]; split;
    [intros (c' & E & H) l q [X|I]; [discriminate|]; exact (proj1 (IH c') H l q I)
    |intro H; eexists; split; [reflexivity|]; apply IH; intros l q I; apply H; now right].
  cbn [verify_do]. split.
  - intros (c' & E & H) l' q [X|I]; [|exact (proj1 (IH c') H l' q I)]. injection X as <-. intros J L.
    destruct (comp_to_string q) as [t|] eqn:T; [exists t; now apply prints_iff|]. exfalso.
    assert (P : vc_set_required c0 l = Panic). { apply set_required_panic. split; [exact L|]. exists q. split; [exact J|].
      intros [t U]. apply prints_iff in U. congruence. }
    congruence.
  - intro H. destruct (vc_set_required c0 l) as [c'|] eqn:E.
    + exists c'. split; [reflexivity|]. apply IH. intros l' q I. apply H. now right.
    + exfalso. apply set_required_panic in E. destruct E as [L (q & I & N)]. apply N. apply (H l q); [now left|exact I|exact L].
Qed.

(** ** C32 *)
Lemma at_item (s : str) (i : item) : parse_item_field (ch_quote :: "@"%char :: s) = Some i ->
  exists n, it_bare i = BString ("@"%char :: n).
Proof.
  unfold parse_item_field. destruct (is_ascii _); [|discriminate].
  assert (E : skip_sp (ch_quote :: "@"%char :: s) = ch_quote :: "@"%char :: s) by reflexivity. rewrite E.
  unfold parse_item, parse_bare_item. change (Ascii.eqb ch_quote "?") with false. change (Ascii.eqb ch_quote ch_quote) with true. cbv iota.
  assert (F : parse_string_body ("@"%char :: s) = match parse_string_body s with Some (t, r) => Some ("@"%char :: t, r) | None => None end) by reflexivity.
  rewrite F. destruct (parse_string_body s) as [[t r]|]; [|discriminate]. destruct (parse_params r) as [[p r']|]; [|discriminate].
  destruct (skip_sp r'); [|discriminate]. intro H. injection H as <-. now exists t.
Qed.
Lemma comp_from_str_ok (s : str) (c : component) : comp_from_str s = Ok c ->
  component_rep c /\ match c with
                     | CHeader h => spelled s h
                     | CDerived _ => exists s', s = ch_quote :: "@"%char :: s'
                     end.
Proof.
  unfold comp_from_str. destruct (starts_with $"@" s || starts_with [ch_quote] s) eqn:E.
  - unfold dc_from_str. destruct (starts_with [ch_quote; "@"%char] s) eqn:S; [|discriminate].
    apply starts_with_spec in S. destruct S as (s' & ->). cbn [app]. destruct (parse_item_field _) as [i|] eqn:P; [|discriminate].
    intro H. injection H as <-. split; [|now exists s'].
    pose proof (parse_item_field_good _ _ P) as G. pose proof (parse_item_field_small _ _ P) as M.
    apply (comp_from_item_rep i _ G M). destruct (at_item s' i P) as [n N]. unfold comp_from_item. rewrite N. reflexivity.
  - destruct (hname_parse s) as [h|] eqn:H; [|discriminate]. intro X. injection X as <-. apply spelled_iff in H. split; [|exact H].
    apply spelled_iff in H. apply header_name_ok. now apply hname_parse_some in H.
Qed.
Lemma comp_from_str_header (s h : str) : comp_from_str s = Ok (CHeader h) <-> spelled s h.
Proof. split; [|apply spelled_component]. intro H. now apply comp_from_str_ok in H. Qed.
Lemma comp_from_str_bare_at (s : str) : comp_from_str ("@"%char :: s) = Err EDerivedComponentParse.
Proof. reflexivity. Qed.
Lemma comp_print_parse (c : component) (t : str) : component_rep c -> prints c t ->
  exists c', comp_from_str t = Ok c' /\ same_component c' c.
Proof.
  intros R P. destruct c as [d|h].
  - pose proof R as R'. destruct R as (n & E & _). destruct (derived_text_head d n t E P) as [t' ->].
    cbn [prints] in P. apply item_text_iff in P. pose proof (component_rep_good _ R') as G. cbn [comp_to_item] in G.
    pose proof (parse_ser_item_field _ _ P (item_good_ne _ G)) as X.
    exists (CDerived (Derived (canon_item (dc_item d)))). split.
    + unfold comp_from_str, dc_from_str. cbn [starts_with]. change (Ascii.eqb ch_quote "@") with false.
      change (Ascii.eqb ch_quote ch_quote) with true. change (Ascii.eqb "@" "@") with true. cbn [andb orb]. now rewrite X.
    + cbn [same_component dc_item]. exact (component_rep_same _ R').
  - cbn [prints] in P. subst t. exists (CHeader h). split; [|reflexivity]. apply spelled_component, spelled_iff, hname_parse_ok.
    now apply header_name_ok.
Qed.
Lemma comp_at_less (n t : str) (p : params) : (forall m, n <> "@"%char :: m) -> prints (CDerived (Derived (Item (BString n) p))) t ->
  comp_from_str t = Err EDerivedComponentParse.
Proof.
  intros N P. cbn [prints dc_item] in P. destruct P as (a & b & A & B & ->). cbn [it_bare bare_text] in A. destruct A as [V ->].
  unfold comp_from_str, dc_from_str. cbn [app starts_with].
  change (Ascii.eqb ch_quote "@") with false. change (Ascii.eqb ch_quote ch_quote) with true. cbn [andb orb].
  destruct n as [|x n]; [reflexivity|]. destruct (Ascii.eqb_spec x ch_bslash) as [->|X1]; [reflexivity|].
  destruct (Ascii.eqb_spec x ch_quote) as [->|X2]; [reflexivity|].
  assert (Es : escaped x = [x]).
  { unfold escaped. apply Ascii.eqb_neq in X1. apply Ascii.eqb_neq in X2. unfold ch_bslash, ch_quote in *. now rewrite X1, X2. }
  cbn [map List.concat]. rewrite Es. cbn [app]. destruct (Ascii.eqb_spec "@" x) as [<-|X3]; [exfalso; now apply (N n)|].
  cbn [andb]. rewrite orb_true_r. reflexivity.
Qed.

(** ** C33 *)
Lemma comp_order (a b : component) (s t : str) : prints a s -> prints b t ->
  (comp_cmp a b = Done Lt <-> before s t) /\ (comp_cmp a b = Done Eq <-> s = t) /\ (comp_cmp a b = Done Gt <-> before t s).
Proof.
  intros A B. rewrite (comp_cmp_prints a b s t A B), before_iff, <- str_cmp_gt, <- str_cmp_eq.
  destruct (str_cmp s t); repeat split; congruence.
Qed.
Lemma comp_order_laws (a b c : component) : component_rep a -> component_rep b -> component_rep c ->
  comp_cmp a a = Done Eq
  /\ (exists o, comp_cmp a b = Done o /\ comp_cmp b a = Done (CompOpp o))
  /\ (comp_cmp a b = Done Lt -> comp_cmp b c = Done Lt -> comp_cmp a c = Done Lt)
  /\ (comp_cmp a b = Done Eq -> comp_cmp b c = comp_cmp a c).
Proof.
  intros Ra Rb Rc. destruct (rep_prints a Ra) as [s Ps]. destruct (rep_prints b Rb) as [t Pt]. destruct (rep_prints c Rc) as [u Pu].
  rewrite (comp_cmp_prints a a s s), (comp_cmp_prints a b s t), (comp_cmp_prints b a t s), (comp_cmp_prints b c t u), (comp_cmp_prints a c s u) by assumption.
  rewrite str_cmp_refl. split; [reflexivity|]. split; [exists (str_cmp s t); split; [reflexivity|now rewrite str_cmp_antisym]|].
  split.
  - intros H1 H2. assert (E1 : str_cmp s t = Lt) by congruence. assert (E2 : str_cmp t u = Lt) by congruence.
    now rewrite (str_cmp_lt_trans _ _ _ E1 E2).
  - intro H. assert (E : str_cmp s t = Eq) by congruence. apply str_cmp_eq in E. now subst t.
Qed.
Lemma comp_equal_order (a b : component) : component_rep a -> component_rep b -> comp_cmp a b = Done Eq -> equal_component a b.
Proof.
  intros Ra Rb H. destruct (rep_prints a Ra) as [s Ps]. destruct (rep_prints b Rb) as [t Pt].
  apply (comp_order a b s t Ps Pt) in H. subst t. apply same_component_equal. exact (prints_inj a b s Ra Rb Ps Pt).
Qed.
Lemma equal_plain (a b : component) : one_param a -> one_param b -> equal_component a b -> a = b.
Proof.
  destruct a as [[[x p]]|h], b as [[[y q]]|k]; cbn [one_param equal_component dc_item it_bare it_params]; intros Pa Pb; try contradiction; [|congruence].
  intros [E1 E2]. destruct Pa as [Dx Pa], Pb as [Dy Pb].
  assert (NB : forall u v, not_decimal u -> equal_bare u v -> u = v).
  { intros u v N E. destruct u, v; cbn in *; try contradiction; congruence. }
  apply NB in E1; [|exact Dx]. subst y. assert (X : p = q); [|congruence].
  destruct p as [|[k v] [|]], q as [|[k' v'] [|]]; try contradiction.
  - reflexivity.
  - specialize (E2 k'). rewrite !value_of_imap in E2. cbn [imap_get] in E2. now rewrite str_eqb_refl in E2.
  - specialize (E2 k). rewrite !value_of_imap in E2. cbn [imap_get] in E2. now rewrite str_eqb_refl in E2.
  - specialize (E2 k). rewrite !value_of_imap in E2. cbn [imap_get] in E2. rewrite str_eqb_refl in E2.
    destruct (str_eqb k' k) eqn:K; [|contradiction]. apply str_eqb_eq in K. subst k'. apply NB in E2; [congruence|exact Pa].
Qed.
Lemma plain_consistent (a b : component) : component_rep a -> component_rep b -> one_param a -> one_param b ->
  (comp_eqb a b = true <-> comp_cmp a b = Done Eq).
Proof.
  intros Ra Rb Pa Pb. split.
  - intro H. apply equal_component_iff in H; [|now apply rep_distinct|now apply rep_distinct]. apply equal_plain in H; [|assumption|assumption]. subst b.
    destruct (rep_prints a Ra) as [s Ps]. now rewrite (comp_cmp_prints a a s s Ps Ps), str_cmp_refl.
  - intro H. apply equal_component_iff; [now apply rep_distinct|now apply rep_distinct|]. now apply comp_equal_order.
Qed.
Lemma derived_order (a b : derived) (s t : str) : it_bare (dc_item a) = BString s -> it_bare (dc_item b) = BString t ->
  (dc_cmp a b = Lt <-> before s t) /\ (dc_cmp a b = Eq <-> s = t) /\ (dc_cmp a b = Gt <-> before t s).
Proof.
  intros A B. unfold dc_cmp. rewrite A, B, before_iff, str_cmp_gt, str_cmp_eq. tauto.
Qed.
Lemma dec_before (a b : decimal) : dec_cmp a b = Lt <-> value_before (BDecimal a) (BDecimal b).
Proof.
  destruct a as [na m s], b as [nb n t]. unfold dec_cmp, dec_Z. cbn [d_neg d_mant d_scale]. rewrite Z.compare_lt_iff.
  assert (P : (0 < 10 ^ Z.of_nat s)%Z) by (apply Z.pow_pos_nonneg; lia).
  assert (Q : (0 < 10 ^ Z.of_nat t)%Z) by (apply Z.pow_pos_nonneg; lia).
  split.
  - destruct na, nb; intro H.
    + apply vb_negative. lia.
    + apply vb_sign. destruct (N.eq_dec m 0) as [->|]; [|now left]. destruct (N.eq_dec n 0) as [->|]; [|now right]. lia.
    + exfalso. nia.
    + now apply vb_decimal.
  - intro H. inversion H as [| | | |? ? ? ? L E1 E2|? ? ? ? L E1 E2|? ? ? ? L E1 E2|]; subst; [exact L|lia|].
    destruct L; nia.
Qed.
Lemma dec_cmp_swap (a b : decimal) : dec_cmp b a = CompOpp (dec_cmp a b).
Proof. unfold dec_cmp. apply Z.compare_antisym. Qed.
Lemma dc_before (a b : derived) : dc_cmp a b = Lt <-> value_before (it_bare (dc_item a)) (it_bare (dc_item b)).
Proof.
  unfold dc_cmp. destruct (it_bare (dc_item a)) as [x|x|x|x|x|x], (it_bare (dc_item b)) as [y|y|y|y|y|y];
    try (split; [discriminate|intro H; inversion H]).
  all: try apply dec_before; try rewrite <- before_iff.
  all: try (split; [intro H; constructor; exact H|intro H; inversion H; assumption]).
  all: try (rewrite before_iff; split; [intro H; constructor; exact H|intro H; inversion H; assumption]).
  destruct x, y; (split; [try discriminate; intros _; constructor|intro H; inversion H; reflexivity]).
Qed.
Lemma str_cmp_swap (s t : str) : str_cmp t s = CompOpp (str_cmp s t).
Proof.
  destruct (str_cmp s t) eqn:E; cbn [CompOpp].
  - apply str_cmp_eq in E. subst t. apply str_cmp_refl.
  - apply str_cmp_gt. now apply before_iff.
  - apply before_iff. now apply str_cmp_gt.
Qed.
Lemma dc_cmp_swap (a b : derived) : dc_cmp b a = CompOpp (dc_cmp a b).
Proof.
  unfold dc_cmp. destruct (it_bare (dc_item a)) as [x|x|x|x|x|x], (it_bare (dc_item b)) as [y|y|y|y|y|y]; try reflexivity;
    try apply str_cmp_swap; try apply dec_cmp_swap; try apply Z.compare_antisym. now destruct x, y.
Qed.
Lemma derived_values (a b : derived) : let x := it_bare (dc_item a) in let y := it_bare (dc_item b) in
  (dc_cmp a b = Lt <-> value_before x y) /\ (dc_cmp a b = Gt <-> value_before y x)
  /\ (dc_cmp a b = Eq <-> ~ value_before x y /\ ~ value_before y x).
Proof.
  cbv zeta. rewrite <- !dc_before, (dc_cmp_swap a b). destruct (dc_cmp a b); cbn [CompOpp]; repeat split; try discriminate;
    try (intros [H1 H2]; congruence); congruence.
Qed.
