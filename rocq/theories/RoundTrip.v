(** Signing followed by verification: C09, C10, C16, C19. *)
From Verif Require Export RoundFacts MoreVerify SignMore AlgFacts.

(** ** The stamp *)
Lemma stamp_canon (c : signing_config) (now : Z) : canon_params (stamp c now) = stamp c now.
Proof. unfold stamp, opt_param. destruct (created_at c now), (expires_at c now), (sc_nonce c); reflexivity. Qed.
Lemma stamp_keyid (c : signing_config) (now : Z) : value_of $"keyid" (stamp c now) = Some (BString (sc_key_id c)).
Proof. unfold stamp, opt_param. destruct (created_at c now), (expires_at c now), (sc_nonce c); reflexivity. Qed.
Lemma stamp_alg (c : signing_config) (now : Z) : value_of $"alg" (stamp c now) = Some (BString (sg_name (sc_signature c))).
Proof. reflexivity. Qed.
Lemma stamp_created (c : signing_config) (now : Z) : value_of $"created" (stamp c now) = option_map BInteger (created_at c now).
Proof. unfold stamp, opt_param. destruct (created_at c now), (expires_at c now), (sc_nonce c); reflexivity. Qed.
Lemma stamp_expires (c : signing_config) (now : Z) : value_of $"expires" (stamp c now) = option_map BInteger (expires_at c now).
Proof. unfold stamp, opt_param. destruct (created_at c now), (expires_at c now), (sc_nonce c); reflexivity. Qed.
Lemma stamp_date (c : signing_config) (now : Z) : value_of $"date" (stamp c now) = None.
Proof. unfold stamp, opt_param. destruct (created_at c now), (expires_at c now), (sc_nonce c); reflexivity. Qed.

(** ** Signature texts *)
(** A text that stands between the colons of a Signature header unharmed. *)
Lemma member_text (label sig label' sig' : str) : ~ In "="%char label -> clean_signature sig ->
  (signature_member (label ++ $"=:" ++ sig ++ $":") label' sig' <-> label' = label /\ sig' = sig).
Proof.
  intros N [C1 C2].
  assert (M : signature_member (label ++ $"=:" ++ sig ++ $":") label sig).
  { split; [exact N|]. split; [exists 1%nat, 1%nat; reflexivity|]. split; assumption. }
  split.
  - intro M'. apply signature_member_iff in M. apply signature_member_iff in M'. rewrite M in M'. injection M' as <- <-. auto.
  - intros [-> ->]. exact M.
Qed.
(** A label with an equals sign leaves a colon inside the text. *)
Lemma strip_colons (l y : str) : exists m l', l ++ "="%char :: y = repeat ":"%char m ++ l' ++ "="%char :: y
  /\ forall x, l' ++ "="%char :: y <> ":"%char :: x.
Proof.
  induction l as [|a l (m & l' & E & F)].
  - exists 0%nat, []. split; [reflexivity|]. intros x H. discriminate.
  - destruct (ascii_dec a ":"%char) as [->|N].
    + exists (S m), l'. split; [|exact F]. cbn [app repeat]. now rewrite E.
    + exists 0%nat, (a :: l). split; [reflexivity|]. intros x H. injection H as H _. contradiction.
Qed.
Lemma member_colon (label sig label' sig' : str) : In "="%char label -> clean_signature sig -> sig <> [] ->
  signature_member (label ++ $"=:" ++ sig ++ $":") label' sig' -> In ":"%char sig'.
Proof.
  intros I [C1 C2] Ne M.
  destruct (split_once "=" label) as [[l1 l2]|] eqn:Es.
  2:{ apply split_once_none in Es. contradiction. }
  apply split_once_spec in Es. destruct Es as [-> N1].
  destruct (strip_colons l2 (":"%char :: sig)) as (m & l3 & E & F).
  assert (M' : signature_member ((l1 ++ "="%char :: l2) ++ $"=:" ++ sig ++ $":") l1 (l3 ++ "="%char :: ":"%char :: sig)).
  { split; [exact N1|]. split; [|split; [exact F|]].
    - exists m, 1%nat. rewrite <- app_assoc. f_equal. cbn [app]. f_equal.
      transitivity ((l2 ++ "="%char :: ":"%char :: sig) ++ $":"); [now rewrite <- app_assoc|].
      rewrite E, <- app_assoc. reflexivity.
    - intros x H. destruct (exists_last Ne) as (t & z & ->).
      rewrite app_comm_cons, app_comm_cons, app_assoc in H. apply app_inj_tail in H. destruct H as [_ ->]. now apply (C2 t). }
  apply signature_member_iff in M. apply signature_member_iff in M'. rewrite M in M'. injection M' as _ ->.
  apply in_or_app. right. right. now left.
Qed.
Lemma b64_clean (s : str) : clean_signature (b64_encode s).
Proof.
  destruct (b64_encode_chars s) as [H _].
  split; intros x E; rewrite E in H; [|rewrite forallb_app in H; apply andb_true_iff in H; destruct H as [_ H]];
    cbn in H; discriminate.
Qed.
Lemma b64_plain (s : str) : plain (b64_encode s).
Proof.
  destruct (b64_encode_chars s) as [H _]. apply Forall_forall. intros c Hc. left.
  apply (forallb_In _ _ _ H) in Hc. unfold visible.
  pose proof (byte_all (fun c => implb (is_b64_char c) ((32 <=? code c)%N && (code c <=? 126)%N))) as B.
  specialize (B ltac:(vm_compute; reflexivity) c). cbv beta in B. rewrite Hc in B. cbn [implb] in B.
  fold (code c). lia.
Qed.
Lemma signature_text_plain (c : signing_config) (rnd : N) (base : str) :
  plain (sc_label c) -> plain (sg_sign (sc_signature c) rnd base) -> plain (signature_text c rnd base).
Proof.
  intros H1 H2. unfold signature_text. apply Forall_app. split; [exact H1|]. apply Forall_app.
  split; [apply plain_iff; reflexivity|]. apply Forall_app. split; [exact H2|apply plain_iff; reflexivity].
Qed.
Lemma keeps_sub {A} (P : A -> Prop) (l l' : list A) : keeps P l l' -> forall x, In x l' <-> In x l /\ P x.
Proof.
  induction 1 as [|y l l' Hy _ IH|y l l' Hy _ IH]; intro x; cbn [In].
  - tauto.
  - rewrite IH. split; [intros [->|]; tauto|tauto].
  - rewrite IH. split; [tauto|]. intros [[->|H] H']; [contradiction|tauto].
Qed.

Section Trip.
  Context {R : Type} (cr : client_request_like R) (L : client_laws cr).
  Variables (r r' : R) (c : signing_config) (env : sign_env).
  Hypothesis Clock : sys_clock_ok (se_sys env).
  Hypothesis Signed : sign cr r c env = Done (r', Ok tt).
  Hypothesis Rep : Forall component_rep (sc_components c).
  Hypothesis Nonce : sc_nonce c <> Some [].
  Let now := seconds (se_sys env).
  Let view := signed_view (cr_rl cr) r r'.

  (** What the header pair reads back as. *)
  Lemma signed_facts : exists cs base sp,
    covered view c cs /\ signature_base view cs (stamp c now) base
    /\ rl_derive (cr_rl cr) r' (CHeader $"signature-input") = Done (Some ($"sig=" ++ sp))
    /\ input_reads ($"sig=" ++ sp) (CanonConfig (Some $"sig") (map canon_component cs) (stamp c now))
    /\ (forall q, In q cs <-> In q (sc_components c) /\ has_value view q)
    /\ (plain (signature_text c (se_rnd env) base) ->
        rl_derive (cr_rl cr) r' (CHeader $"signature") = Done (Some (signature_text c (se_rnd env) base))).
  Proof.
    destruct (sign_ok_facts cr L r r' c env Clock Signed) as (cs & base & sp & Cov & _ & _ & B & I & D1 & _ & D2).
    exists cs, base, sp. split; [exact Cov|]. split; [exact B|]. split; [exact D1|].
    assert (In' : forall q, In q cs <-> In q (sc_components c) /\ has_value view q).
    { unfold covered in Cov. destruct (sc_skip_missing c); [now apply keeps_sub|]. subst cs. intro q. split; [|tauto].
      intro H. split; [exact H|]. destruct B as (ids & vals & sp' & _ & V & _). clear - H V.
      induction V as [|x v l vs Hx _ IH]; [destruct H|]. destruct H as [->|H]; [now exists v|now apply IH]. }
    split; [|split; [exact In'|exact D2]].
    assert (Rcs : Forall component_rep cs).
    { rewrite Forall_forall in *. intros q Hq. apply Rep. now apply In'. }
    pose proof (print_parse_exact (CanonConfig None cs (stamp c now)) ($"sig=" ++ sp)) as P.
    cbn [cc_components cc_params] in P. rewrite stamp_canon in P. apply cc_parse_iff, P.
    - split; [split; [discriminate|apply key_text_const; reflexivity]|]. split; [exact Rcs|].
      destruct I as (its & pt & _ & Pt & _). exact (stamp_rep c now pt Nonce Pt).
    - unfold cc_to_signature_input, si_to_string, si_new. cbn [si_label si_list cc_get_label cc_label cc_components cc_params].
      assert (E : ser_dict1 $"sig" (cl_new cs (stamp c now)) = Some ($"sig=" ++ sp)).
      { apply label_text. exists sp. split; [exact I|reflexivity]. }
      now rewrite E.
  Qed.

  Section Server.
    Context {S Rem : Type} (sr : server_request_like S Rem) (SL : server_laws sr).
    Variables (s : S) (vc : verifying_config) (venv : verify_env).
    Hypothesis Input : rl_derive (sr_rl sr) s (CHeader $"signature-input") = rl_derive (cr_rl cr) r' (CHeader $"signature-input").

    (** C16: no [date] parameter. *)
    Lemma date_validation_rejects : vc_validate_date vc = true ->
      utc_clock_ok (ve_utc venv) ->
      forall rem kid, verify sr s vc venv <> Done (Ok (rem, kid)).
    Proof.
      intros V U rem kid H. destruct (date_enforced sr s vc venv rem kid U V H) as (input & cc & d & H1 & H2 & H3 & _).
      destruct signed_facts as (cs & base & sp & _ & _ & D & P & _). unfold header_value in H1. rewrite Input, D in H1.
      assert (Ei : input = $"sig=" ++ sp) by congruence. subst input. pose proof (input_reads_unique _ _ _ P H2) as <-. cbn [cc_params] in H3. rewrite stamp_date in H3. discriminate.
    Qed.

    Hypothesis Sig : rl_derive (sr_rl sr) s (CHeader $"signature") = rl_derive (cr_rl cr) r' (CHeader $"signature").

    (** C19: the label of Signature-Input is always "sig". *)
    Lemma other_label_rejected : sc_label c <> $"sig" -> plain (sc_label c) ->
      (forall m, let sig := sg_sign (sc_signature c) (se_rnd env) m in plain sig /\ clean_signature sig /\ sig <> []) ->
      (forall k, In k (vc_keys vc (sc_key_id c)) -> rejects_colons k) ->
      forall rem kid, verify sr s vc venv <> Done (Ok (rem, kid)).
    Proof.
      intros N P1 P2 Rc rem kid H.
      destruct (accepted_signature sr s vc venv rem kid H) as (cc & sig & (input & sigv & A1 & A2 & A3 & A4 & A5 & _) & base2 & k & _ & Kin & Kv).
      destruct signed_facts as (cs & base & sp & _ & _ & D & P & _ & D2).
      unfold header_value in A1, A3. rewrite Input, D in A1.
      assert (Ei : input = $"sig=" ++ sp) by congruence. subst input. pose proof (input_reads_unique _ _ _ P A2) as <-.
      destruct (P2 base) as (P2a & P2b & P2c).
      rewrite Sig, D2 in A3 by (apply signature_text_plain; auto).
      assert (Es : sigv = signature_text c (se_rnd env) base) by congruence. subst sigv.
      cbn [cc_get_label cc_label cc_params] in A4, A5. rewrite stamp_keyid in A5. injection A5 as <-.
      unfold signature_text in A4. destruct (in_dec ascii_dec "="%char (sc_label c)) as [E|E].
      - assert (C : In ":"%char sig) by (eapply member_colon; eassumption).
        rewrite (Rc k Kin _ _ C) in Kv. discriminate.
      - apply member_text in A4; [|exact E|exact P2b]. destruct A4 as [A4 _]. now apply N.
    Qed.

    (** C09. *)
    Hypothesis Agree : forall q, In q (sc_components c) -> has_value (rl_derive (cr_rl cr) r') q ->
      rl_derive (sr_rl sr) s q = rl_derive (cr_rl cr) r' q.
    Hypothesis NoSig : forall q, In q (sc_components c) -> ~ signature_header q.

    Lemma view_after (q : component) : ~ signature_header q -> view q = rl_derive (cr_rl cr) r' q.
    Proof.
      intro N. unfold view, signed_view. destruct q as [d|h]; [reflexivity|].
      destruct (list_eq_dec ascii_dec h $"signature") as [->|]; [exfalso; apply N; now left|].
      destruct (list_eq_dec ascii_dec h $"signature-input") as [->|]; [exfalso; apply N; now right|]. reflexivity.
    Qed.

    Lemma sign_verify (k : http_verifier) :
      sc_label c = $"sig" ->
      (forall m, let sig := sg_sign (sc_signature c) (se_rnd env) m in plain sig /\ clean_signature sig /\ vf_verify k m sig = true) ->
      In k (vc_keys vc (sc_key_id c)) ->
      sys_clock_ok (ve_sys venv) -> vc_validate_date vc = false ->
      (forall t, created_at c now = Some t -> (t <= seconds (ve_sys venv))%Z) ->
      (forall t, expires_at c now = Some t -> (seconds (ve_sys venv) <= t)%Z) ->
      (forall q, In q (vc_required vc) -> (exists h, q = CHeader h) /\ In q (sc_components c) /\ has_value (rl_derive (cr_rl cr) r') q) ->
      digest_ok sr s vc ->
      exists rem, verify sr s vc venv = Done (Ok (rem, sc_key_id c)).
    Proof.
      intros Lb K Hk O V Tc Te Rq Dg. apply verify_iff.
      { exact O. } { rewrite V. discriminate. }
      destruct signed_facts as (cs & base & sp & Cov & B & D & P & I & D2).
      exists (CanonConfig (Some $"sig") (map canon_component cs) (stamp c now)), (sg_sign (sc_signature c) (se_rnd env) base).
      destruct (K base) as (K1 & K2 & K3).
      assert (Pl : plain (signature_text c (se_rnd env) base)).
      { apply signature_text_plain; [rewrite Lb; apply plain_iff; reflexivity|exact K1]. }
      split; [|split; [|split; [|split; [|split; [|exact Dg]]]]].
      - exists ($"sig=" ++ sp), (signature_text c (se_rnd env) base). unfold header_value.
        rewrite Input, Sig. split; [exact D|]. split; [exact P|]. split; [exact (D2 Pl)|].
        cbn [cc_get_label cc_label cc_params]. split.
        + unfold signature_text. rewrite Lb. apply member_text; [vm_compute; intuition discriminate|exact K2|auto].
        + split; [apply stamp_keyid|]. exists (sg_name (sc_signature c)). apply stamp_alg.
      - unfold times_ok. cbn [cc_params]. rewrite stamp_created, stamp_expires. split; intros t E.
        + apply Tc. destruct (created_at c now); [|discriminate]. cbn in E. congruence.
        + apply Te. destruct (expires_at c now); [|discriminate]. cbn in E. congruence.
      - exists base, k. cbn [cc_components cc_params]. split; [|split; [exact Hk|exact K3]].
        rewrite <- (stamp_canon c now). apply (canon_base view); [|exact B]. intros q Hq. apply I in Hq. destruct Hq as [Hq Hv].
        rewrite Forall_forall in Rep. rewrite (sl_same _ SL s _ _ (canon_component_same q (Rep q Hq))).
        unfold has_value in Hv. rewrite view_after in Hv by now apply NoSig.
        rewrite Agree by assumption. symmetry. apply view_after. now apply NoSig.
      - apply Forall_forall. intros q Hq. destruct (Rq q Hq) as ((h & ->) & Hc & Hv). exists h. split; [reflexivity|].
        exists (Item (BString h) []). split; [|reflexivity]. cbn [cc_components]. rewrite map_map. apply in_map_iff.
        exists (CHeader h). split; [reflexivity|]. apply I. split; [exact Hc|]. unfold has_value. rewrite view_after by now apply NoSig.
        exact Hv.
      - unfold date_ok. rewrite V. discriminate.
    Qed.
  End Server.

  (** C10. *)
  Section Tamper.
    Context {S Rem : Type} (sr : server_request_like S Rem) (SL : server_laws sr).
    Variables (s : S) (vc : verifying_config) (venv : verify_env).
    Hypothesis Input : rl_derive (sr_rl sr) s (CHeader $"signature-input") = rl_derive (cr_rl cr) r' (CHeader $"signature-input").
    Hypothesis Sig : rl_derive (sr_rl sr) s (CHeader $"signature") = rl_derive (cr_rl cr) r' (CHeader $"signature").
    Lemma tamper (rem : Rem) (kid : str) :
      ~ In "="%char (sc_label c) -> plain (sc_label c) ->
      (forall m, let sig := sg_sign (sc_signature c) (se_rnd env) m in plain sig /\ clean_signature sig) ->
      verify sr s vc venv = Done (Ok (rem, kid)) ->
      kid = sc_key_id c
      /\ exists cs m1 m2 k, covered view c cs /\ (forall q, In q cs <-> In q (sc_components c) /\ has_value view q)
        /\ signature_base view cs (stamp c now) m1
        /\ signature_base (rl_derive (sr_rl sr) s) cs (stamp c now) m2
        /\ In k (vc_keys vc (sc_key_id c)) /\ vf_verify k m2 (sg_sign (sc_signature c) (se_rnd env) m1) = true.
    Proof.
      intros E Pl Sg H.
      destruct (accepted_signature sr s vc venv rem kid H) as (cc & sig & (input & sigv & A1 & A2 & A3 & A4 & A5 & _) & base2 & k & B2 & Kin & Kv).
      destruct signed_facts as (cs & base & sp & Cov & B & D & P & I & D2).
      unfold header_value in A1, A3. rewrite Input, D in A1.
      assert (Ei : input = $"sig=" ++ sp) by congruence. subst input. pose proof (input_reads_unique _ _ _ P A2) as <-.
      destruct (Sg base) as [Sg1 Sg2].
      rewrite Sig, D2 in A3 by (apply signature_text_plain; assumption).
      assert (Es : sigv = signature_text c (se_rnd env) base) by congruence. subst sigv.
      cbn [cc_get_label cc_label cc_params cc_components] in *. rewrite stamp_keyid in A5. injection A5 as <-.
      unfold signature_text in A4. apply member_text in A4; [|exact E|exact Sg2]. destruct A4 as [_ ->].
      split; [reflexivity|].
      exists cs, base, base2, k. split; [exact Cov|]. split; [exact I|]. split; [exact B|]. split; [|split; [exact Kin|exact Kv]].
      destruct B2 as (ids & vals & sp2 & F1 & F2 & F3 & ->). destruct B as (ids1 & vals1 & sp1 & G1 & _ & G3 & _).
      assert (Ej : ids = ids1 /\ sp2 = sp1).
      { split.
        - clear - F1 G1. revert ids F1. induction G1 as [|q t l ts Hq _ IH]; intros ids F; inversion F; subst; [reflexivity|].
          f_equal; [|now apply IH]. apply canon_identifier in Hq. eapply identifier_fun; eassumption.
        - apply canon_items_text in G3. rewrite stamp_canon in G3. apply inner_text_iff in G3. apply inner_text_iff in F3. congruence. }
      destruct Ej as [-> ->]. exists ids1, vals, sp1. split; [exact G1|]. split; [|split; [exact G3|reflexivity]].
      clear - Rep I F2 SL. assert (Rcs : Forall component_rep cs).
      { rewrite Forall_forall in *. intros q Hq. apply Rep. now apply I. }
      clear Rep I. revert vals F2. induction Rcs as [|q cs Hq _ IH]; intros vals F; inversion F; subst; constructor; [|now apply IH].
      rewrite <- (sl_same _ SL s _ _ (canon_component_same q Hq)). assumption.
    Qed.

    (** Equal bases bind the values; different ones are a forgery. *)
    Lemma tamper_values (rem : Rem) (kid : str) :
      ~ In "="%char (sc_label c) -> plain (sc_label c) ->
      (forall m, let sig := sg_sign (sc_signature c) (se_rnd env) m in plain sig /\ clean_signature sig) ->
      (forall q v w, In q (sc_components c) -> view q = Done (Some v) -> rl_derive (sr_rl sr) s q = Done (Some w) ->
         lf_count v = lf_count w) ->
      verify sr s vc venv = Done (Ok (rem, kid)) ->
      (forall q v, In q (sc_components c) -> view q = Done (Some v) -> rl_derive (sr_rl sr) s q = Done (Some v))
      \/ exists m1 m2 k, two_bases view (rl_derive (sr_rl sr) s) c now m1 m2
      /\ In k (vc_keys vc (sc_key_id c)) /\ vf_verify k m2 (sg_sign (sc_signature c) (se_rnd env) m1) = true.
    Proof.
      intros E Pl Sg Lf H. destruct (tamper rem kid E Pl Sg H) as (_ & cs & m1 & m2 & k & Cov & I & B1 & B2 & Hk & Hv).
      destruct (list_eq_dec ascii_dec m1 m2) as [Em|Nm]; [left|right; exists m1, m2, k; split; [split; [exact Nm|exists cs; auto]|auto]].
      subst m2. intros q v Hq Dv.
      set (rl := RequestLike unit (fun _ => view) (fun _ _ => Panic)).
      set (cc := CanonConfig None cs (stamp c now)).
      assert (C1 : exists si, canonicalize rl tt cc = Done (Ok (m1, si))).
      { eexists. apply canonicalize_ok. split; [exact B1|reflexivity]. }
      assert (C2 : exists si, canonicalize (sr_rl sr) s cc = Done (Ok (m1, si))).
      { eexists. apply canonicalize_ok. split; [exact B2|reflexivity]. }
      destruct C1 as [si1 C1]. destruct C2 as [si2 C2].
      destruct (base_binds_values_same rl (sr_rl sr) tt s cc m1 si1 si2 C1 C2) with (x := q) as (w & W1 & W2).
      - intros x a b Hx Da Db. apply (Lf x); [|exact Da|exact Db]. now apply I.
      - apply I. split; [exact Hq|now exists v].
      - cbn in W1. rewrite Dv in W1. congruence.
    Qed.
  End Tamper.
End Trip.

(** With an HMAC key, a forgery is a collision. *)
Lemma hmac_outputs (mac : str -> str) (m : str) : plain (hmac_http_sign mac m) /\ clean_signature (hmac_http_sign mac m).
Proof. split; [apply b64_plain|apply b64_clean]. Qed.
Lemma hmac_forgery (mac : str -> str) (m1 m2 : str) :
  hmac_http_verify mac m2 (hmac_http_sign mac m1) = true -> mac m1 = mac m2.
Proof. intro H. unfold hmac_http_verify, hmac_http_sign in H. rewrite b64_decode_encode in H. symmetry. now apply str_eqb_eq. Qed.
Lemma hmac_accepts_own (mac : str -> str) (m : str) : hmac_http_verify mac m (hmac_http_sign mac m) = true.
Proof. unfold hmac_http_verify, hmac_http_sign. rewrite b64_decode_encode. now apply str_eqb_eq. Qed.

(** ** Digests added by [sign] *)
Section Client.
  Context {R : Type} (cr : client_request_like R) (L : client_laws cr).
  Let derive := rl_derive (cr_rl cr).
  Lemma add_date_shape (r r1 : R) (c : signing_config) (env : sign_env) :
    add_date cr r c env = Done r1 -> r1 = r \/ exists v, r1 = cr_set_header cr r h_date v.
  Proof.
    unfold add_date. destruct (sc_add_date c); [|intro H; injection H as <-; now left].
    destruct (rl_has_component _ _ _) as [[|]|]; cbn [obind]; [intro H; injection H as <-; now left| |discriminate].
    destruct (utc_now _) as [x|]; cbn [obind]; [|discriminate].
    destruct (unwrap _) as [v|]; cbn [obind]; [|discriminate]. intro H. injection H as <-. eauto.
  Qed.
  Lemma add_host_shape (r r1 : R) (c : signing_config) :
    add_host cr r c = Done r1 -> r1 = r \/ exists v, r1 = cr_set_header cr r h_host v.
  Proof.
    unfold add_host. destruct (sc_add_host c); [|intro H; injection H as <-; now left].
    destruct (rl_has_component _ _ _) as [[|]|]; cbn [obind]; [intro H; injection H as <-; now left| |discriminate].
    destruct (cr_host cr r) as [x|]; [|intro H; injection H as <-; now left].
    destruct (unwrap _) as [v|]; cbn [obind]; [|discriminate]. intro H. injection H as <-. eauto.
  Qed.
  (** The digest header after signing a request that had none. *)
  Lemma sign_digest (r r' : R) (c : signing_config) (env : sign_env) (res : result unit error) :
    sys_clock_ok (se_sys env) -> derive r (CHeader $"digest") = Done None ->
    (forall d, snd (cr_compute_digest cr r (sc_digest c)) = Some d -> plain (dg_name (sc_digest c) ++ $"=" ++ d)) ->
    sign cr r c env = Done (r', res) ->
    derive r' (CHeader $"digest")
    = Done (if sc_compute_digest c
            then option_map (fun d => dg_name (sc_digest c) ++ $"=" ++ d) (snd (cr_compute_digest cr r (sc_digest c)))
            else None).
  Proof.
    intros S D U H. apply (sign_result_of cr r r' c env res S) in H. destruct H as (r1 & cs & Ha & H).
    cut (derive r1 (CHeader $"digest")
         = Done (if sc_compute_digest c
            then option_map (fun d => dg_name (sc_digest c) ++ $"=" ++ d) (snd (cr_compute_digest cr r (sc_digest c)))
            else None)).
    { intro E. unfold derive in *. inversion H; subst; rewrite ?(cl_set_other _ L) by discriminate; exact E. }
    clear H. revert Ha. unfold add_auto_headers.
    destruct (add_date cr r c env) as [ra|] eqn:Ea; cbn [obind]; [|discriminate].
    destruct (add_host cr ra c) as [rb|] eqn:Eb; cbn [obind]; [|discriminate].
    destruct (add_digest cr rb c) as [rc|] eqn:Ec; cbn [obind]; [|discriminate].
    destruct (if sc_skip_missing c then _ else _) as [cs'|]; cbn [obind]; [|discriminate].
    intro H. injection H as <- <-.
    apply add_date_shape in Ea. apply add_host_shape in Eb.
    assert (Db : derive rb (CHeader $"digest") = Done None).
    { unfold derive in *. destruct Eb as [-> |(v & ->)]; rewrite ?(cl_set_other _ L) by discriminate;
        destruct Ea as [-> |(w & ->)]; rewrite ?(cl_set_other _ L) by discriminate; exact D. }
    assert (Hg : snd (cr_compute_digest cr rb (sc_digest c)) = snd (cr_compute_digest cr r (sc_digest c))).
    { destruct Eb as [-> |(v & ->)]; rewrite ?(cl_digest_set _ L);
        destruct Ea as [-> |(w & ->)]; rewrite ?(cl_digest_set _ L); reflexivity. }
    rewrite <- Hg in *. revert Ec. unfold add_digest. destruct (sc_compute_digest c).
    2:{ intro H. injection H as <-. exact Db. }
    rewrite (cl_has _ L). fold derive. change h_digest with $"digest". rewrite Db. cbn [obind].
    pose proof (cl_digest _ L rb (sc_digest c)) as Q.
    destruct (cr_compute_digest cr rb (sc_digest c)) as [r2 [d|]]; cbn [fst snd option_map] in *.
    - specialize (U d eq_refl). rewrite (legal_parse _ (plain_legal _ U)). cbn [unwrap obind].
      intro H. injection H as <-. apply (cl_set _ L). exact U.
    - intro H. injection H as <-. unfold derive. rewrite Q. exact Db.
  Qed.
End Client.

(** Both digests of the crate are read back. *)
Lemma digest_plain (d : http_digest) (b : str) : d = sha256_digest \/ d = sha512_digest ->
  plain (dg_name d ++ $"=" ++ dg_digest d b).
Proof.
  intros [-> | ->]; apply Forall_app; (split; [apply plain_iff; reflexivity|]); apply Forall_app;
    (split; [apply plain_iff; reflexivity|apply b64_plain]).
Qed.
Lemma digest_first (d : http_digest) (b : str) : d = sha256_digest \/ d = sha512_digest ->
  first_entry default_digest_provider (dg_name d ++ $"=" ++ dg_digest d b) d (dg_digest d b).
Proof.
  intro H. exists [], (dg_name d ++ $"=" ++ dg_digest d b), []. split; [reflexivity|]. split; [|split; [constructor|]].
  - constructor; [|constructor]. intro I. apply in_app_or in I. destruct I as [I|I]; [|apply in_app_or in I; destruct I as [I|I]].
    + destruct H as [-> | ->]; revert I; vm_compute; intuition discriminate.
    + revert I; vm_compute; intuition discriminate.
    + destruct H as [-> | ->]; now apply b64_no_comma in I.
  - exists (dg_name d), (dg_digest d b), (dg_name d). split; [reflexivity|].
    destruct H as [-> | ->]; (split; [vm_compute; intuition discriminate|]); (split; [apply trimmed_iff; reflexivity|]); (split; [reflexivity|]);
      apply trimmed_iff; apply trim_b64.
Qed.

(** Signing a MockRequest keeps its body. *)
Lemma mock_body (r r' : mock) (c : signing_config) (env : sign_env) (res : result unit error) :
  sys_clock_ok (se_sys env) -> sign mr_client r c env = Done (r', res) -> mr_body r' = mr_body r.
Proof. intros S H. apply (mock_frame r r' c env res S) in H. intuition. Qed.

(** Signing and verifying the same MockRequest with the default digest options. *)
Lemma mock_round (r r' : mock) (c : signing_config) (env : sign_env) (vc : verifying_config) (venv : verify_env) (k : http_verifier) :
  sys_clock_ok (se_sys env) -> sign mr_client r c env = Done (r', Ok tt) ->
  sc_label c = $"sig" -> sc_nonce c <> Some [] ->
  Forall component_rep (sc_components c) -> (forall q, In q (sc_components c) -> ~ signature_header q) ->
  mr_derive r (CHeader $"digest") = Done None -> sc_compute_digest c = true ->
  sc_digest c = sha256_digest \/ sc_digest c = sha512_digest -> vc_digests vc = default_digest_provider ->
  matching (sc_signature c) (se_rnd env) k -> In k (vc_keys vc (sc_key_id c)) ->
  sys_clock_ok (ve_sys venv) -> vc_validate_date vc = false ->
  (forall t, created_at c (seconds (se_sys env)) = Some t -> (t <= seconds (ve_sys venv))%Z) ->
  (forall t, expires_at c (seconds (se_sys env)) = Some t -> (seconds (ve_sys venv) <= t)%Z) ->
  (forall q, In q (vc_required vc) -> (exists h, q = CHeader h) /\ In q (sc_components c) /\ has_value (mr_derive r') q) ->
  verify mr_server r' vc venv = Done (Ok (tt, sc_key_id c)).
Proof.
  intros S H Lb Nn Rp Ns Dg Cd Dd Dp Km Kin S' Vd Tc Te Rq.
  pose proof (mock_body r r' c env (Ok tt) S H) as Bd.
  assert (Dig : mr_derive r' (CHeader $"digest") = Done (option_map (fun b => dg_name (sc_digest c) ++ $"=" ++ dg_digest (sc_digest c) b) (mr_body r))).
  { pose proof (sign_digest mr_client mr_client_laws r r' c env (Ok tt) S Dg) as X.
    cbn [cr_rl cr_compute_digest mr_client rl_derive mr_rl] in X. rewrite X; clear X.
    - rewrite Cd. unfold mr_compute_digest. cbn [snd]. destruct (mr_body r); reflexivity.
    - intros d E. unfold mr_compute_digest in E. cbn [snd] in E. destruct (mr_body r) as [b|]; [|discriminate].
      injection E as <-. now apply digest_plain.
    - exact H. }
  destruct (sign_verify mr_client mr_client_laws r r' c env S H Rp Nn mr_server mr_server_laws r' vc venv) with (k := k) as ([] & E);
    try reflexivity; try assumption.
  unfold digest_ok, header_value. cbn [sr_rl mr_server rl_derive mr_rl]. rewrite Dig.
  cbn [sr_complete_with_digest mr_server]. unfold mr_complete_with_digest. rewrite Bd.
  destruct (mr_body r) as [b|]; cbn [option_map].
  - left. eexists. split; [reflexivity|]. intros _. exists (sc_digest c), (dg_digest (sc_digest c) b). rewrite Dp.
    split; [now apply digest_first|reflexivity].
  - right. split; [reflexivity|]. reflexivity.
Qed.

(** The algorithms of the crate. *)
Lemma hmac_matching (mac : str -> str) (n n' : str) (rnd : N) :
  matching (HttpSigner n (fun _ => hmac_http_sign mac)) rnd (HttpVerifier n' (hmac_http_verify mac)).
Proof. intro m. cbn. destruct (hmac_outputs mac m). split; [assumption|]. split; [assumption|]. apply hmac_accepts_own. Qed.
Lemma raw_matching (sign : N -> str -> str) (ver : str -> str -> bool) (n n' : str) (rnd : N) :
  (forall m, ver m (sign rnd m) = true) ->
  matching (HttpSigner n (raw_http_sign sign)) rnd (HttpVerifier n' (raw_http_verify ver)).
Proof.
  intros H m. cbn. unfold raw_http_sign, raw_http_verify. split; [apply b64_plain|]. split; [apply b64_clean|].
  rewrite b64_decode_encode. apply H.
Qed.
Lemma crate_matching (rnd : N) :
  (forall key, matching (hmac_sha256_signer key) rnd (hmac_sha256_verifier key))
  /\ (forall key, matching (hmac_sha512_signer key) rnd (hmac_sha512_verifier key))
  /\ (forall cy t sk pk, (forall m, cy_verify cy (ring_sign_scheme t) pk m (cy_sign cy (ring_sign_scheme t) sk rnd m) = true) ->
        matching (ring_signer cy t sk) rnd (ring_verifier cy t pk))
  /\ (forall cy t sk pk s sg vf, openssl_scheme t = Some s ->
        (forall m, cy_verify cy s pk m (cy_sign cy s sk rnd m) = true) ->
        openssl_signer cy t sk = Some sg -> openssl_verifier cy t pk = Some vf -> matching sg rnd vf).
Proof.
  split; [|split; [|split]].
  - intro key. apply hmac_matching.
  - intro key. apply hmac_matching.
  - intros cy t sk pk H. apply raw_matching. intro m. destruct t; apply H.
  - intros cy t sk pk s sg vf Es H E1 E2. unfold openssl_signer in E1. unfold openssl_verifier in E2. rewrite Es in E1, E2.
    destruct (openssl_name t); [|discriminate]. injection E1 as <-. injection E2 as <-. now apply raw_matching.
Qed.

(** C10 with an HMAC key. *)
Lemma tamper_hmac {R} (cr : client_request_like R) (L : client_laws cr) {S Rem} (sr : server_request_like S Rem) (SL : server_laws sr)
    (r r' : R) (c : signing_config) (env : sign_env) (s : S) (vc : verifying_config) (venv : verify_env) (rem : Rem) (kid : str)
    (mac : str -> str) (n n' : str) :
  sys_clock_ok (se_sys env) -> sign cr r c env = Done (r', Ok tt) ->
  Forall component_rep (sc_components c) -> sc_nonce c <> Some [] -> ~ In "="%char (sc_label c) -> plain (sc_label c) ->
  sc_signature c = HttpSigner n (fun _ => hmac_http_sign mac) ->
  (forall k, In k (vc_keys vc (sc_key_id c)) -> k = HttpVerifier n' (hmac_http_verify mac)) ->
  rl_derive (sr_rl sr) s (CHeader $"signature-input") = rl_derive (cr_rl cr) r' (CHeader $"signature-input") ->
  rl_derive (sr_rl sr) s (CHeader $"signature") = rl_derive (cr_rl cr) r' (CHeader $"signature") ->
  same_line_feeds (signed_view (cr_rl cr) r r') (rl_derive (sr_rl sr) s) (sc_components c) ->
  verify sr s vc venv = Done (Ok (rem, kid)) ->
  (forall q v, In q (sc_components c) -> signed_view (cr_rl cr) r r' q = Done (Some v) -> rl_derive (sr_rl sr) s q = Done (Some v))
  \/ exists m1 m2, two_bases (signed_view (cr_rl cr) r r') (rl_derive (sr_rl sr) s) c (seconds (se_sys env)) m1 m2 /\ mac m1 = mac m2.
Proof.
  intros Ck H Rp Nn Ne Pl Sg Ks I1 I2 Lf V.
  destruct (tamper_values cr L r r' c env Ck H Rp Nn sr SL s vc venv I1 I2 rem kid Ne Pl) as [E|(m1 & m2 & k & N & Kin & Kv)];
    try assumption.
  - intro m. rewrite Sg. apply hmac_outputs.
  - now left.
  - right. exists m1, m2. split; [exact N|].
    rewrite (Ks k Kin), Sg in Kv. cbn in Kv. now apply hmac_forgery.
Qed.

(** The crate's verifiers reject colons. *)
Lemma b64_no_colon (s : str) : ~ In ":"%char (b64_encode s).
Proof. destruct (b64_encode_chars s) as [H _]. intro I. apply (forallb_In _ _ _ H) in I. discriminate. Qed.
Lemma crate_rejects_colons :
  (forall n mac, rejects_colons (HttpVerifier n (hmac_http_verify mac)))
  /\ (forall n v, rejects_colons (HttpVerifier n (raw_http_verify v))).
Proof.
  split; intros n f msg sig H; apply not_true_is_false; intro V.
  - cbn in V. unfold hmac_http_verify in V. destruct (b64_decode sig) as [t|] eqn:E; [|discriminate].
    apply b64_decode_iff in E. subst sig. now apply b64_no_colon in H.
  - apply raw_verify_iff in V. destruct V as (tag & -> & _). now apply b64_no_colon in H.
Qed.
