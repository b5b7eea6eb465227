(** When [sign] panics, and which components it covers. *)
From Verif Require Export SignFacts DateFacts.

Section Client.
  Context {R : Type} (cr : client_request_like R) (L : client_laws cr).
  Let derive := rl_derive (cr_rl cr).

  (** *** The automatic headers *)
  Lemma add_date_total (r : R) (c : signing_config) (env : sign_env) :
    (sc_add_date c = true -> utc_clock_ok (se_utc env)) ->
    exists r1, add_date cr r c env = Done r1
      /\ (r1 = r \/ exists v, r1 = cr_set_header cr r h_date v)
      /\ forall q, has_value (derive r1) q <-> has_value (derive r) q \/ q = CHeader $"date" /\ sc_add_date c = true.
  Proof.
    intro U. unfold add_date. destruct (sc_add_date c) eqn:A.
    2:{ exists r. split; [reflexivity|]. split; [now left|]. intro q. intuition discriminate. }
    specialize (U eq_refl). rewrite (cl_has _ L). fold derive.
    destruct (proj1 (cl_total _ L r) $"date") as [o D]. fold derive in D. change h_date with $"date" in *. rewrite D.
    destruct o as [v|]; cbn [obind].
    - exists r. split; [reflexivity|]. split; [now left|]. intro q. split; [tauto|]. intros [H|[-> _]]; [exact H|]. exists v. exact D.
    - rewrite utc_now_ok by exact U. cbn [obind].
      rewrite (legal_parse _ (plain_legal _ (fmt_plain _))). cbn [unwrap obind].
      eexists. split; [reflexivity|]. split; [right; eauto|]. intro q. destruct (header_dec q $"date") as [->|N].
      + split; [intros _; right; auto|]. intros _. unfold has_value, derive. rewrite (cl_set _ L) by apply fmt_plain. eauto.
      + unfold has_value, derive. rewrite (cl_set_other _ L) by exact N. intuition.
  Qed.
  Lemma add_host_total (r : R) (c : signing_config) :
    (forall h, cr_host cr r = Some h -> plain h) ->
    exists r1, add_host cr r c = Done r1
      /\ (r1 = r \/ exists v, r1 = cr_set_header cr r h_host v)
      /\ forall q, has_value (derive r1) q
                   <-> has_value (derive r) q \/ q = CHeader $"host" /\ sc_add_host c = true /\ cr_host cr r <> None.
  Proof.
    intro U. unfold add_host. destruct (sc_add_host c) eqn:A.
    2:{ exists r. split; [reflexivity|]. split; [now left|]. intro q. intuition discriminate. }
    rewrite (cl_has _ L). fold derive.
    destruct (proj1 (cl_total _ L r) $"host") as [o D]. fold derive in D. change h_host with $"host" in *. rewrite D.
    destruct o as [v|]; cbn [obind].
    - exists r. split; [reflexivity|]. split; [now left|]. intro q. split; [tauto|]. intros [H|[-> _]]; [exact H|]. exists v. exact D.
    - destruct (cr_host cr r) as [h|] eqn:Eh.
      2:{ exists r. split; [reflexivity|]. split; [now left|]. intro q. split; [tauto|]. intros [H|(_ & _ & F)]; [exact H|congruence]. }
      specialize (U h eq_refl). rewrite (legal_parse _ (plain_legal _ U)). cbn [unwrap obind].
      eexists. split; [reflexivity|]. split; [right; eauto|]. intro q. destruct (header_dec q $"host") as [->|N].
      + split; [intros _; right; split; [reflexivity|]; split; [reflexivity|discriminate]|].
        intros _. unfold has_value, derive. rewrite (cl_set _ L) by exact U. eauto.
      + unfold has_value, derive. rewrite (cl_set_other _ L) by exact N. intuition.
  Qed.
  Lemma add_digest_total (r : R) (c : signing_config) :
    (forall d, snd (cr_compute_digest cr r (sc_digest c)) = Some d -> plain (dg_name (sc_digest c) ++ $"=" ++ d)) ->
    exists r1, add_digest cr r c = Done r1
      /\ forall q, has_value (derive r1) q
                   <-> has_value (derive r) q
                       \/ q = CHeader $"digest" /\ sc_compute_digest c = true /\ snd (cr_compute_digest cr r (sc_digest c)) <> None.
  Proof.
    intro U. unfold add_digest. destruct (sc_compute_digest c) eqn:A.
    2:{ exists r. split; [reflexivity|]. intro q. intuition discriminate. }
    rewrite (cl_has _ L). fold derive.
    destruct (proj1 (cl_total _ L r) $"digest") as [o D]. fold derive in D. change h_digest with $"digest" in *. rewrite D.
    destruct o as [v|]; cbn [obind].
    - exists r. split; [reflexivity|]. intro q. split; [tauto|]. intros [H|[-> _]]; [exact H|]. exists v. exact D.
    - pose proof (cl_digest _ L r (sc_digest c)) as Q.
      destruct (cr_compute_digest cr r (sc_digest c)) as [r1 [d|]]; cbn [fst snd] in *.
      + specialize (U d eq_refl). rewrite (legal_parse _ (plain_legal _ U)). cbn [unwrap obind].
        eexists. split; [reflexivity|]. intro q. destruct (header_dec q $"digest") as [->|N].
        * split; [intros _; right; split; [reflexivity|]; split; [reflexivity|discriminate]|].
          intros _. unfold has_value, derive. rewrite (cl_set _ L) by exact U. eauto.
        * unfold has_value, derive. rewrite (cl_set_other _ L) by exact N. rewrite Q. intuition.
      + exists r1. split; [reflexivity|]. intro q. unfold has_value, derive. rewrite Q. split; [tauto|].
        intros [H|(_ & _ & F)]; [exact H|congruence].
  Qed.

  Lemma proper_total (r : R) (q : component) : proper_component q -> derive r q <> Panic.
  Proof.
    destruct q as [d|h]; cbn [proper_component].
    - intros (n & E) P. destruct (proj2 (cl_total _ L r) d n E) as [o O]. unfold derive in P. congruence.
    - intros _ P. destruct (proj1 (cl_total _ L r) h) as [o O]. unfold derive in P. congruence.
  Qed.
  (** With safe automatic headers the first step never panics, and it covers exactly
      the available components. *)
  Lemma auto_total (r : R) (c : signing_config) (env : sign_env) :
    auto_safe cr r c env -> Forall proper_component (sc_components c) ->
    exists r1 cs, add_auto_headers cr r c env = Done (r1, cs)
      /\ (forall q, has_value (derive r1) q <-> available cr r c q)
      /\ (if sc_skip_missing c then keeps (available cr r c) (sc_components c) cs else cs = sc_components c).
  Proof.
    intros (_ & U & Hh & Hd) P. unfold add_auto_headers.
    destruct (add_date_total r c env U) as (ra & -> & Ea & Va). cbn [obind].
    assert (Ha : cr_host cr ra = cr_host cr r).
    { destruct Ea as [-> |(v & ->)]; [reflexivity|apply (cl_host _ L)]. }
    destruct (add_host_total ra c) as (rb & -> & Eb & Vb); [now rewrite Ha|]. cbn [obind].
    assert (Hg : snd (cr_compute_digest cr rb (sc_digest c)) = snd (cr_compute_digest cr r (sc_digest c))).
    { transitivity (snd (cr_compute_digest cr ra (sc_digest c))).
      - destruct Eb as [-> |(v & ->)]; [reflexivity|apply (cl_digest_set _ L)].
      - destruct Ea as [-> |(v & ->)]; [reflexivity|apply (cl_digest_set _ L)]. }
    destruct (add_digest_total rb c) as (rc & -> & Vc); [now rewrite Hg|]. cbn [obind].
    assert (V : forall q, has_value (derive rc) q <-> available cr r c q).
    { intro q. rewrite Vc, Vb, Va, Ha, Hg. unfold available. fold derive. tauto. }
    destruct (sc_skip_missing c) eqn:S.
    - destruct (ofilter (rl_has_component (cr_rl cr) rc) (sc_components c)) as [cs|] eqn:F; cbn [obind].
      + exists rc, cs. split; [reflexivity|]. split; [exact V|].
        apply (ofilter_keeps cr L) in F. eapply keeps_ext; [|exact F]. exact V.
      + exfalso. apply (ofilter_panic cr L) in F. destruct F as (q & Hq & D). rewrite Forall_forall in P.
        exact (proper_total rc q (P q Hq) D).
    - cbn [obind]. exists rc, (sc_components c). auto.
  Qed.

  (** *** Serialization *)
  Lemma ser_inner_none (cs : list component) (p : params) : Forall proper_component cs ->
    (ser_inner_list (cl_new cs p) = None <->
     ~ (exists t, params_text p t) \/ exists d, In (CDerived d) cs /\ ~ exists t, item_text (dc_item d) t).
  Proof.
    intro P.
    assert (I : (exists its, Forall2 item_text (map component_item cs) its)
                <-> forall d, In (CDerived d) cs -> exists t, item_text (dc_item d) t).
    { split.
      - intros (its & F). revert its F. induction cs as [|q cs IH]; intros its F; [intros d []|]. inversion F as [|? t ? ts Hq Hr]; subst. inversion P; subst.
        intros d [->|Hd]; [exists t; exact Hq|]. exact (IH ltac:(assumption) ts Hr d Hd).
      - intro H. induction cs as [|q cs IH]; [exists []; constructor|]. inversion P as [|? ? Pq Pr]; subst.
        destruct (IH Pr) as (its & F); [intros d Hd; apply H; now right|].
        assert (Q : exists t, item_text (component_item q) t).
        { destruct q as [d|h]; [apply H; now left|]. cbn [component_item proper_component] in *. eexists. exists ([ch_quote] ++ List.concat (map escaped h) ++ [ch_quote]), [].
          split; [split; [exact Pq|reflexivity]|]. split; [constructor|reflexivity]. }
        destruct Q as (t & Q). exists (t :: its). now constructor. }
    assert (T : ser_inner_list (cl_new cs p) = None <-> ~ exists t, inner_text (map component_item cs) p t).
    { unfold cl_new. rewrite <- comp_items_eq. split.
      - intros E (t & Ht). apply inner_text_iff in Ht. congruence.
      - intro N. destruct (ser_inner_list _) as [t|] eqn:E; [|reflexivity]. exfalso. apply N. exists t. now apply inner_text_iff. }
    rewrite T. split.
    - intro N. destruct (ser_params p) as [pt|] eqn:E.
      + right. 
        assert (X : ~ forall d, In (CDerived d) cs -> exists t, item_text (dc_item d) t).
        { intro H. apply I in H. destruct H as (its & F). apply N. eexists. exists its, pt. split; [exact F|].
          split; [now apply params_text_iff|reflexivity]. }
        clear - X P. induction cs as [|q cs IH]; [exfalso; apply X; intros d []|]. inversion P as [|? ? Pq Pr]; subst.
        assert (Q : (exists t, item_text (component_item q) t) \/ ~ exists t, item_text (component_item q) t).
        { destruct (ser_item (component_item q)) as [t|] eqn:E.
          - left. exists t. now apply item_text_iff.
          - right. intros (t & Ht). apply item_text_iff in Ht. congruence. }
        destruct Q as [Q|Q].
        * destruct (IH Pr) as (d & Hd & Nd); [|exists d; split; [now right|exact Nd]].
          intro H. apply X. intros d [->|Hd]; [exact Q|now apply H].
        * destruct q as [d|h]; [exists d; split; [now left|exact Q]|]. exfalso. apply Q. cbn [component_item proper_component] in *.
          eexists. exists ([ch_quote] ++ List.concat (map escaped h) ++ [ch_quote]), [].
          split; [split; [exact Pq|reflexivity]|]. split; [constructor|reflexivity].
      + left. intros (t & Ht). apply params_text_iff in Ht. congruence.
    - intros H (t & its & pt & F & Pt & _). destruct H as [H|(d & Hd & Nd)]; [apply H; eauto|].
      apply Nd. apply (proj1 I); [eauto|exact Hd].
  Qed.
  Lemma keeps_in {A} (P : A -> Prop) (l l' : list A) (x : A) : keeps P l l' -> In x l' <-> In x l /\ P x.
  Proof.
    induction 1 as [|y l l' H _ IH|y l l' H _ IH]; cbn [In]; [tauto|..].
    - rewrite IH. split; [intros [->|]; tauto|tauto].
    - rewrite IH. split; [tauto|]. intros [[->|Hx] Hp]; [contradiction|tauto].
  Qed.
  Lemma keeps_all {A} (P Q : A -> Prop) (l l' : list A) : Forall Q l -> keeps P l l' -> Forall Q l'.
  Proof. intros H K. apply Forall_forall. intros x Hx. rewrite Forall_forall in H. apply H. now apply (keeps_in P l l' x K) in Hx. Qed.

  Lemma available_derived (r : R) (c : signing_config) (d : derived) :
    available cr r c (CDerived d) <-> has_value (derive r) (CDerived d).
  Proof. unfold available. fold derive. intuition discriminate. Qed.

  Lemma sign_panic_iff (r : R) (c : signing_config) (env : sign_env) :
    let now := seconds (se_sys env) in
    auto_safe cr r c env -> Forall proper_component (sc_components c) ->
    (sign cr r c env = Panic <->
     ~ created_late c now /\ ~ expires_early c now
     /\ (sc_skip_missing c = true \/ forall q, In q (sc_components c) -> available cr r c q)
     /\ unprintable (cr_rl cr) r c now).
  Proof.
    cbv zeta. intros S P. pose proof (proj1 S) as Hs. destruct (auto_total r c env S P) as (r1 & cs & A & V & C).
    unfold sign. rewrite A. cbn [obind]. rewrite (unix_timestamp_ok _ Hs). cbn [obind]. rewrite sign_canon_eq.
    set (now := seconds (se_sys env)) in *.
    pose proof (created_late_iff c now) as C1. destruct (match created_at c now with Some t => _ | None => _ end).
    { split; [discriminate|]. intros (F & _). exfalso. apply F. now apply C1. }
    pose proof (expires_early_iff c now) as C2. destruct (match expires_at c now with Some t => _ | None => _ end).
    { split; [discriminate|]. intros (_ & F & _). exfalso. apply F. now apply C2. }
    assert (N1 : ~ created_late c now) by (intro F; apply C1 in F; discriminate).
    assert (N2 : ~ expires_early c now) by (intro F; apply C2 in F; discriminate).
    assert (Pc : Forall proper_component cs).
    { destruct (sc_skip_missing c); [eapply keeps_all; eauto|now subst cs]. }
    assert (Vs : (exists vs, Forall2 (fun q v => derive r1 q = Done (Some v)) cs vs)
                 <-> forall q, In q cs -> available cr r c q).
    { split.
      - intros (vs & F) q Hq. apply V. clear - F Hq. induction F; [destruct Hq|]. destruct Hq as [<-|Hq]; [eexists; eassumption|auto].
      - intro H. clear - H V. induction cs as [|q cs IH]; [exists []; constructor|].
        destruct IH as (vs & F); [intros; apply H; now right|]. destruct (proj2 (V q) (H q (or_introl eq_refl))) as (v & E).
        exists (v :: vs). now constructor. }
    assert (Un : ser_inner_list (cl_new cs (stamp c now)) = None -> unprintable (cr_rl cr) r c now \/ exists d, In (CDerived d) cs /\ ~ available cr r c (CDerived d)).
    { intro N. apply ser_inner_none in N; [|exact Pc]. destruct N as [N|(d & Hd & N)]; [left; now left|].
      pose proof (available_derived r c d) as Av.
      destruct (derive r (CDerived d)) as [[v|]|] eqn:Ed.
      - left. right. exists d. split; [|split; [|exact N]].
        + destruct (sc_skip_missing c); [now apply (keeps_in _ _ _ _ C) in Hd|now subst cs].
        + exists v. exact Ed.
      - right. exists d. split; [exact Hd|]. rewrite Av. intros (v & F). congruence.
      - right. exists d. split; [exact Hd|]. rewrite Av. intros (v & F). congruence. }
    assert (Nu : unprintable (cr_rl cr) r c now -> ser_inner_list (cl_new cs (stamp c now)) = None).
    { intros [N|(d & Hd & Hv & N)]; apply ser_inner_none; try exact Pc; [now left|]. right. exists d. split; [|exact N].
      destruct (sc_skip_missing c); [apply (keeps_in _ _ _ _ C); split; [exact Hd|now apply available_derived]|now subst cs]. }
    split.
    - intro H. split; [exact N1|]. split; [exact N2|].
      assert (X : canonicalize (cr_rl cr) r1 (CanonConfig None cs (stamp c now)) = Panic
        \/ exists base si, canonicalize (cr_rl cr) r1 (CanonConfig None cs (stamp c now)) = Done (Ok (base, si)) /\ si_to_string si = Panic).
      { destruct (canonicalize _ _ _) as [[[base si]|e]|]; cbn [obind] in H; [|discriminate|now left].
        right. exists base, si. split; [reflexivity|]. destruct (si_to_string si) as [t|]; [|reflexivity]. cbn [obind] in H.
        destruct (hvalue_parse t); [|discriminate]. destruct (hvalue_parse _); discriminate. }
      destruct X as [X|(base & si & X & Y)].
      + apply canonicalize_panic in X. cbn [cc_components cc_params] in X. destruct X as [(q & Hq & D)|[F N]].
        * exfalso. rewrite Forall_forall in Pc. exact (proper_total r1 q (Pc q Hq) D).
        * pose proof (proj1 Vs F) as Av. destruct (Un N) as [U|(d & Hd & Nd)]; [|exfalso; exact (Nd (Av _ Hd))].
          split; [|exact U]. destruct (sc_skip_missing c); [now left|]. right. now subst cs.
      + exfalso. apply canonicalize_ok in X. cbn [cc_components cc_params] in X. destruct X as [(ids & vs & sp & _ & _ & I & _) ->].
        unfold cc_to_signature_input, si_to_string, si_new in Y. cbn [si_label si_list cc_get_label cc_label cc_components cc_params] in Y.
        destruct (ser_dict1 $"sig" (cl_new cs (stamp c now))) as [t|] eqn:Et; [discriminate|].
        assert (G : ser_dict1 $"sig" (cl_new cs (stamp c now)) = Some ($"sig=" ++ sp)).
        { apply label_text. exists sp. split; [|reflexivity]. unfold cl_new. cbn [il_items il_params]. now rewrite <- comp_items_eq. }
        congruence.
    - intros (_ & _ & Hm & U). apply Nu in U.
      assert (X : canonicalize (cr_rl cr) r1 (CanonConfig None cs (stamp c now)) = Panic).
      { apply canonicalize_panic. right. cbn [cc_components cc_params]. split; [|exact U]. apply Vs.
        intros q Hq. destruct (sc_skip_missing c); [now apply (keeps_in _ _ _ _ C) in Hq|]. subst cs. destruct Hm as [F|Hm]; [discriminate|now apply Hm]. }
      rewrite X. reflexivity.
  Qed.
End Client.
