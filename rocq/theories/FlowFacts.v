(** Lemmas for the properties of SpecFlow.v. *)
From Verif Require Import Samples SpecFlow GrowFacts DateFacts MockFacts RoundTrip LineFacts CanonFacts SignFacts SignMore VerifyFacts ReqFacts Witness HistFacts AutoFacts WitnessRound.

Section Outcome.
  Context {S Rem : Type} (sr : server_request_like S Rem) (r : S) (c : verifying_config) (env : verify_env).
  Hypothesis Clocks : clocks_ok c env.

  Lemma authentic_except (kid : str) : verify_except_digest sr r c env = Done (Some kid) <-> authentic sr r c env kid.
  Proof. destruct Clocks as [A B]. exact (except_digest_iff sr r c env A B kid). Qed.

  Lemma outcome_total : verify_except_digest sr r c env <> Panic ->
    (exists o, rl_derive (sr_rl sr) r (CHeader $"digest") = Done o) ->
    forall res, verify sr r c env = Done res <-> verify_outcome sr r c env res.
  Proof.
    intros NP (od & D) res. unfold verify. change h_digest with $"digest". rewrite D.
    destruct (verify_except_digest sr r c env) as [[kid|]|] eqn:E; cbn [obind]; [| |congruence].
    - pose proof (proj1 (authentic_except kid) E) as A.
      assert (U : forall k, authentic sr r c env k -> k = kid).
      { intros k K. apply authentic_except in K. congruence. }
      destruct od as [dv|].
      + assert (DV : forall x, header_value sr r $"digest" x -> x = dv) by (unfold header_value; intros x X; congruence).
        assert (HD : header_value sr r $"digest" dv) by exact D.
        destruct (vc_validate_digest c) eqn:V.
        * destruct (first_digest (vc_digests c) (split "," dv)) as [[alg v]|] eqn:F.
          -- assert (FU : forall a w, first_entry (vc_digests c) dv a w -> a = alg /\ w = v).
             { intros a w Fw. apply first_entry_iff in Fw. rewrite F in Fw. injection Fw as <- <-. split; reflexivity. }
             apply first_entry_iff in F.
             destruct (sr_complete_with_digest sr r alg) as [[ex|] rm] eqn:Q.
             ++ destruct (str_eqb v ex) eqn:T.
                ** apply str_eqb_eq in T. subst ex. split.
                   --- intro H. injection H as <-. replace rm with (snd (sr_complete_with_digest sr r alg)) by now rewrite Q.
                       eapply vo_match; eauto. now rewrite Q.
                   --- intro H. destruct H as [N|k d K H1 H2|k d K H1 H2 H3|k d a w K H1 H2 H3 H4|k d a w K H1 H2 H3 H4|k K H1 H2|k K H1 H2 H3|k K H1 H2 H3];
                         try (exfalso; first [eapply N; exact A|congruence|apply DV in H1; subst d; eapply H3; exact F]).
                       +++ apply DV in H1. subst d. destruct (FU _ _ H3) as [-> ->]. rewrite Q. rewrite (U k K). reflexivity.
                       +++ apply DV in H1. subst d. destruct (FU _ _ H3) as [-> ->]. rewrite Q in H4. exfalso. apply H4. reflexivity.
                ** split.
                   --- intro H. injection H as <-. replace rm with (snd (sr_complete_with_digest sr r alg)) by now rewrite Q.
                       eapply vo_mismatch; eauto. rewrite Q. cbn [fst]. intro X. injection X as ->. rewrite str_eqb_refl in T. discriminate.
                   --- intro H. destruct H as [N|k d K H1 H2|k d K H1 H2 H3|k d a w K H1 H2 H3 H4|k d a w K H1 H2 H3 H4|k K H1 H2|k K H1 H2 H3|k K H1 H2 H3];
                         try (exfalso; first [eapply N; exact A|congruence|apply DV in H1; subst d; eapply H3; exact F]).
                       +++ apply DV in H1. subst d. destruct (FU _ _ H3) as [-> ->]. rewrite Q in H4. cbn [fst] in H4. injection H4 as ->.
                           rewrite str_eqb_refl in T. discriminate.
                       +++ apply DV in H1. subst d. destruct (FU _ _ H3) as [-> ->]. rewrite Q. reflexivity.
             ++ split.
                ** intro H. injection H as <-. replace rm with (snd (sr_complete_with_digest sr r alg)) by now rewrite Q.
                   eapply vo_mismatch; eauto. rewrite Q. discriminate.
                ** intro H. destruct H as [N|k d K H1 H2|k d K H1 H2 H3|k d a w K H1 H2 H3 H4|k d a w K H1 H2 H3 H4|k K H1 H2|k K H1 H2 H3|k K H1 H2 H3];
                     try (exfalso; first [eapply N; exact A|congruence|apply DV in H1; subst d; eapply H3; exact F]).
                   +++ apply DV in H1. subst d. destruct (FU _ _ H3) as [-> ->]. rewrite Q in H4. discriminate.
                   +++ apply DV in H1. subst d. destruct (FU _ _ H3) as [-> ->]. rewrite Q. reflexivity.
          -- assert (NF : forall a w, ~ first_entry (vc_digests c) dv a w).
             { intros a w Fw. apply first_entry_iff in Fw. congruence. }
             split.
             ++ intro H. injection H as <-. eapply vo_unsupported; eauto.
             ++ intro H. destruct H as [N|k d K H1 H2|k d K H1 H2 H3|k d a w K H1 H2 H3 H4|k d a w K H1 H2 H3 H4|k K H1 H2|k K H1 H2 H3|k K H1 H2 H3];
                  try reflexivity; exfalso; first [congruence|apply DV in H1; subst d; eapply NF; exact H3].
        * split.
          -- intro H. injection H as <-. eapply vo_unchecked; eauto.
          -- intro H. destruct H as [N|k d K H1 H2|k d K H1 H2 H3|k d a w K H1 H2 H3 H4|k d a w K H1 H2 H3 H4|k K H1 H2|k K H1 H2 H3|k K H1 H2 H3];
               try (exfalso; first [eapply N; exact A|congruence]). rewrite (U k K). reflexivity.
      + assert (ND : forall x, ~ header_value sr r $"digest" x) by (unfold header_value; intros x X; congruence).
        destruct (vc_require_digest c) eqn:V.
        * destruct (sr_complete_with_digest sr r sha256_digest) as [[ex|] rm] eqn:Q.
          -- split.
             ++ intro H. injection H as <-. replace rm with (snd (sr_complete_with_digest sr r sha256_digest)) by now rewrite Q.
                eapply vo_bare_body; eauto. rewrite Q. discriminate.
             ++ intro H. destruct H as [N|k d K H1 H2|k d K H1 H2 H3|k d a w K H1 H2 H3 H4|k d a w K H1 H2 H3 H4|k K H1 H2|k K H1 H2 H3|k K H1 H2 H3];
                  try (exfalso; first [eapply N; exact A|eapply ND; exact H1|congruence]).
                ** rewrite Q in H3. discriminate.
                ** rewrite Q. reflexivity.
          -- split.
             ++ intro H. injection H as <-. replace rm with (snd (sr_complete_with_digest sr r sha256_digest)) by now rewrite Q.
                eapply vo_no_body; eauto. now rewrite Q.
             ++ intro H. destruct H as [N|k d K H1 H2|k d K H1 H2 H3|k d a w K H1 H2 H3 H4|k d a w K H1 H2 H3 H4|k K H1 H2|k K H1 H2 H3|k K H1 H2 H3];
                  try (exfalso; first [eapply N; exact A|eapply ND; exact H1|congruence]).
                ** rewrite Q. rewrite (U k K). reflexivity.
                ** rewrite Q in H3. exfalso. apply H3. reflexivity.
        * split.
          -- intro H. injection H as <-. eapply vo_absent; eauto.
          -- intro H. destruct H as [N|k d K H1 H2|k d K H1 H2 H3|k d a w K H1 H2 H3 H4|k d a w K H1 H2 H3 H4|k K H1 H2|k K H1 H2 H3|k K H1 H2 H3];
               try (exfalso; first [eapply N; exact A|eapply ND; exact H1|congruence]). rewrite (U k K). reflexivity.
    - assert (NA : forall k, ~ authentic sr r c env k).
      { intros k K. apply authentic_except in K. congruence. }
      split.
      + intro H. injection H as <-. now apply vo_unauthentic.
      + intro H. destruct H as [N|k d K H1 H2|k d K H1 H2 H3|k d a w K H1 H2 H3 H4|k d a w K H1 H2 H3 H4|k K H1 H2|k K H1 H2 H3|k K H1 H2 H3];
          try reflexivity; exfalso; eapply NA; exact K.
  Qed.

  Lemma verify_outcome_iff : total_request (sr_rl sr) r ->
    (forall d, In (CDerived d) (vc_required c) -> exists t, item_text (dc_item d) t) ->
    forall res, verify sr r c env = Done res <-> input_readable sr r /\ verify_outcome sr r c env res.
  Proof.
    intros T Rq res. destruct (proj1 T $"digest") as (od & D).
    pose proof (verify_panic_text sr r c env T (proj1 Clocks) (proj2 Clocks) Rq) as P.
    assert (Q : verify_except_digest sr r c env = Panic -> verify sr r c env = Panic).
    { intro E. unfold verify. rewrite E. reflexivity. }
    split.
    - intro H. assert (N : verify_except_digest sr r c env <> Panic).
      { intro E. apply Q in E. congruence. }
      split; [|apply outcome_total; eauto]. intros input Hi.
      unfold verify, verify_except_digest, verify_signature_only, oobind in N. unfold header_value in Hi.
      change h_signature_input with $"signature-input" in N. rewrite Hi in N. cbn [obind] in N.
      destruct (cc_parse input) as [[cc|e]|] eqn:Ep; cbn [obind] in N; [|exfalso; now apply N..].
      apply cc_parse_iff in Ep. destruct Ep as (items & M & _ & F). exists (cc_get_label cc), items, (cc_params cc).
      split; [exact M|]. clear - F. induction F; constructor; eauto.
    - intros [Rd O]. apply outcome_total; eauto. intro E. apply Q, P in E. destruct E as (input & Hi & NR). apply NR. now apply Rd.
  Qed.
  Lemma verify_function : total_request (sr_rl sr) r ->
    (forall d, In (CDerived d) (vc_required c) -> exists t, item_text (dc_item d) t) ->
    (verify sr r c env = Panic <-> ~ input_readable sr r)
    /\ (input_readable sr r -> exists res, verify_outcome sr r c env res /\ forall res', verify_outcome sr r c env res' -> res' = res).
  Proof.
    intros T Rq. pose proof (verify_outcome_iff T Rq) as O.
    assert (P : verify sr r c env = Panic <-> ~ input_readable sr r).
    { rewrite (verify_panic_text sr r c env T (proj1 Clocks) (proj2 Clocks) Rq). split.
      - intros (input & I & N) Rd. apply N. now apply Rd.
      - intro N. destruct (proj1 T $"signature-input") as ([input|] & I).
        + exists input. split; [exact I|]. intro X. apply N. intros i Hi. unfold header_value in *. rewrite I in Hi. injection Hi as <-. exact X.
        + exfalso. apply N. intros i Hi. unfold header_value in *. rewrite I in Hi. discriminate. }
    split; [exact P|]. intro Rd. destruct (verify sr r c env) as [res|] eqn:E; [|exfalso; now apply (proj1 P)].
    exists res. split; [now apply (proj1 (O res))|]. intros res' H'.
    assert (X : Done res = Done res') by (apply O; now split). now injection X as <-.
  Qed.
End Outcome.

(** ** C68 *)
Section Time.
  Context {S Rem : Type} (sr : server_request_like S Rem) (r : S) (c : verifying_config).

  Lemma verify_except_same (e1 e2 : verify_env) : verify_except_digest sr r c e1 = verify_except_digest sr r c e2 ->
    verify sr r c e1 = verify sr r c e2.
  Proof. intro E. unfold verify. rewrite E. reflexivity. Qed.
  Lemma ok_except (e : verify_env) (rem : Rem) (kid : str) : verify sr r c e = Done (Ok (rem, kid)) ->
    verify_except_digest sr r c e = Done (Some kid).
  Proof.
    intro H. pose proof H as H'. unfold verify in H. destruct (verify_except_digest sr r c e) as [[k|]|] eqn:E; cbn [obind] in H; try discriminate.
    apply verify_ok_inv in H'. destruct H' as (si & A & B & D). unfold verify_except_digest, oobind in E. rewrite A in E. cbn [obind] in E.
    rewrite B in E. cbn [obind negb] in E. rewrite D in E. cbn [obind negb] in E. exact (eq_sym E).
  Qed.
  Lemma window (e1 e2 : verify_env) (rem : Rem) (kid input : str) (cc : canon_config) :
    clocks_ok c e1 -> clocks_ok c e2 -> verify sr r c e1 = Done (Ok (rem, kid)) ->
    header_value sr r $"signature-input" input -> input_reads input cc ->
    (verify sr r c e2 = Done (Ok (rem, kid)) <-> in_window c (cc_params cc) e2).
  Proof.
    intros K1 K2 V I P.
    assert (Get : forall e kid', clocks_ok c e -> authentic sr r c e kid' -> exists sig, signature_headers sr r cc sig kid' /\ times_ok e cc
        /\ key_accepts sr r c cc sig kid' /\ Forall (listed cc) (vc_required c) /\ date_ok c e cc).
    { intros e kid' Ke (cc' & sig & A1 & A2). assert (cc' = cc) as ->.
      { eapply input_reads_unique; [eapply signature_headers_parse; eassumption|exact P]. }
      eauto. }
    pose proof (ok_except _ _ _ V) as X1. pose proof (proj1 (authentic_except sr r c e1 K1 kid) X1) as A1.
    destruct (Get e1 kid K1 A1) as (sig & B1 & B2 & B3 & B4 & B5).
    split.
    - intro V2. apply ok_except in V2. apply (authentic_except sr r c e2 K2 kid) in V2.
      destruct (Get e2 kid K2 V2) as (sig' & D1 & D2 & D3 & D4 & D5).
      destruct D2 as [T1 T2]. split; [exact T1|]. split; [exact T2|]. intro Vd. destruct (D5 Vd) as (d & E1 & E2 & E3).
      exists d. split; [exact E1|]. split; [exact E2|]. lia.
    - intros (T1 & T2 & T3). rewrite <- V. apply verify_except_same. rewrite X1. apply (authentic_except sr r c e2 K2 kid).
      exists cc, sig. split; [exact B1|]. split; [split; assumption|]. split; [exact B3|]. split; [exact B4|].
      intro Vd. destruct (T3 Vd) as (d & E1 & E2 & E3). exists d. split; [exact E1|]. split; [exact E2|]. lia.
  Qed.
  Lemma seconds_mono (a b : Z) : (a <= b)%Z -> (seconds a <= seconds b)%Z.
  Proof. intro H. unfold seconds. now apply Z.div_le_mono. Qed.
  Lemma accepted_input (e : verify_env) (rem : Rem) (kid : str) : verify sr r c e = Done (Ok (rem, kid)) ->
    exists input cc, header_value sr r $"signature-input" input /\ input_reads input cc.
  Proof. intro V. apply accepted_signature in V. destruct V as (cc & sig & (i & s & H1 & H2 & _) & _). eauto. Qed.
  Lemma interval (e1 e e2 : verify_env) (rem1 rem2 : Rem) (k1 k2 : str) :
    clocks_ok c e1 -> clocks_ok c e2 -> moment_between e1 e e2 ->
    verify sr r c e1 = Done (Ok (rem1, k1)) -> verify sr r c e2 = Done (Ok (rem2, k2)) ->
    verify sr r c e = Done (Ok (rem1, k1)).
  Proof.
    intros K1 K2 [[B1 B2] [B3 B4]] V1 V2.
    destruct (accepted_input e1 rem1 k1 V1) as (input & cc & I & P).
    assert (K : clocks_ok c e).
    { destruct K1 as [[S1 _] U1], K2 as [[_ S2] U2]. split.
      - split; [lia|]. apply Z.le_lt_trans with (seconds (ve_sys e2)); [now apply seconds_mono|exact S2].
      - intro V. destruct (U1 V) as [U3 _], (U2 V) as [_ U4]. split; [lia|].
        apply Z.le_trans with (seconds (ve_utc e2)); [now apply seconds_mono|exact U4]. }
    pose proof (proj1 (window e1 e1 rem1 k1 input cc K1 K1 V1 I P) V1) as (T1 & T2 & T3).
    pose proof (proj1 (window e2 e2 rem2 k2 input cc K2 K2 V2 I P) V2) as (T4 & T5 & T6).
    apply (window e1 e rem1 k1 input cc K1 K V1 I P). split; [|split].
    - intros t E. apply Z.le_trans with (seconds (ve_sys e1)); [now apply T1|now apply seconds_mono].
    - intros t E. apply Z.le_trans with (seconds (ve_sys e2)); [now apply seconds_mono|now apply T5].
    - intro V. destruct (T3 V) as (d & D1 & D2 & D3). destruct (T6 V) as (d' & D4 & D5 & D6).
      assert (d' = d) as -> by congruence. exists d. split; [exact D1|]. split; [exact D2|]. lia.
  Qed.
  Lemma replay (e1 e2 : verify_env) (rem : Rem) (kid input : str) (cc : canon_config) :
    vc_validate_date c = false -> sys_clock_ok (ve_sys e1) -> sys_clock_ok (ve_sys e2) -> (ve_sys e1 <= ve_sys e2)%Z ->
    header_value sr r $"signature-input" input -> input_reads input cc ->
    (forall t, value_of $"expires" (cc_params cc) <> Some (BInteger t)) ->
    verify sr r c e1 = Done (Ok (rem, kid)) -> verify sr r c e2 = Done (Ok (rem, kid)).
  Proof.
    intros D S1 S2 Le I P Ne V. assert (K : forall e, sys_clock_ok (ve_sys e) -> clocks_ok c e).
    { intros e He. split; [exact He|]. rewrite D. discriminate. }
    pose proof (proj1 (window e1 e1 rem kid input cc (K _ S1) (K _ S1) V I P) V) as (T1 & T2 & T3).
    apply (window e1 e2 rem kid input cc (K _ S1) (K _ S2) V I P). split; [|split].
    - intros t E. apply Z.le_trans with (seconds (ve_sys e1)); [now apply T1|now apply seconds_mono].
    - intros t E. exfalso. now apply (Ne t).
    - rewrite D. discriminate.
  Qed.
End Time.

(** ** C69 *)
Section Keys.
  Context {S Rem : Type} (sr : server_request_like S Rem) (r : S) (c : verifying_config) (env : verify_env).

  Lemma current_keys (init : list (str * http_verifier)) (calls : list key_call) (rem : Rem) (kid : str) :
    verify sr r (with_keys c (fold_left key_do calls (skp_new init))) env = Done (Ok (rem, kid)) ->
    exists ks k cc sig base,
      keys_since kid (map (fun kv => AddKey (fst kv) (snd kv)) init ++ calls) ks /\ In k ks
      /\ signature_headers sr r cc sig kid
      /\ signature_base (rl_derive (sr_rl sr) r) (cc_components cc) (cc_params cc) base
      /\ vf_verify k base sig = true.
  Proof.
    intro V. apply accepted_signature in V. destruct V as (cc & sig & H1 & base & k & B1 & B2 & B3).
    cbn [with_keys vc_keys] in B2. exists (skp_provide (fold_left key_do calls (skp_new init)) kid), k, cc, sig, base.
    split; [now apply key_history|]. auto.
  Qed.
  Lemma provide_forgotten (calls : list key_call) (m : simple_keys) (kid : str) :
    Forall (fun x => forall k, x <> AddKey kid k) calls -> skp_provide m kid = [] ->
    skp_provide (fold_left key_do calls m) kid = [].
  Proof.
    intro F. revert m. induction F as [|x l Hx F IH]; intros m E; [exact E|]. cbn [fold_left]. apply IH.
    destruct x as [i k|i|]; cbn [key_do].
    - rewrite skp_provide_add. destruct (str_eqb i kid) eqn:X; [|exact E]. apply str_eqb_eq in X. subst i. exfalso. now apply (Hx k).
    - rewrite skp_provide_remove. now destruct (str_eqb i kid).
    - reflexivity.
  Qed.
  Lemma revoked (m : simple_keys) (calls calls' : list key_call) (f : key_call) (rem : Rem) (kid : str) :
    forgets kid f -> Forall (fun x => forall k, x <> AddKey kid k) calls' ->
    verify sr r (with_keys c (fold_left key_do (calls ++ f :: calls') m)) env <> Done (Ok (rem, kid)).
  Proof.
    intros F N V. apply accepted_signature in V. destruct V as (cc & sig & H1 & base & k & B1 & B2 & B3).
    cbn [with_keys vc_keys] in B2. rewrite fold_left_app in B2. cbn [fold_left] in B2. rewrite provide_forgotten in B2; [exact B2|exact N|].
    destruct F as [->| ->]; cbn [key_do]; [|reflexivity]. now rewrite skp_provide_remove, str_eqb_refl.
  Qed.
  Lemma provide_others (calls : list key_call) (m : simple_keys) (kid : str) :
    Forall (fun x => ~ concerns kid x) calls -> skp_provide (fold_left key_do calls m) kid = skp_provide m kid.
  Proof.
    intro F. revert m. induction F as [|x l Hx F IH]; intros m; [reflexivity|]. cbn [fold_left]. rewrite IH.
    destruct x as [i k|i|]; cbn [key_do].
    - rewrite skp_provide_add. destruct (str_eqb i kid) eqn:X; [|reflexivity]. apply str_eqb_eq in X. subst i.
      exfalso. apply Hx. left. eauto.
    - rewrite skp_provide_remove. destruct (str_eqb i kid) eqn:X; [|reflexivity]. apply str_eqb_eq in X. subst i.
      exfalso. apply Hx. right. now left.
    - exfalso. apply Hx. right. now right.
  Qed.
  Lemma same_keys (m m' : simple_keys) (kid : str) : names_key sr r kid -> skp_provide m kid = skp_provide m' kid ->
    verify sr r (with_keys c m) env = verify sr r (with_keys c m') env.
  Proof.
    intros (input & cc & I & P & K) E.
    assert (X : verify_signature_only sr r (with_keys c m) env = verify_signature_only sr r (with_keys c m') env).
    { unfold verify_signature_only, oobind. unfold header_value in I. change h_signature_input with $"signature-input". rewrite I. cbn [obind].
      apply cc_parse_iff in P. rewrite P. cbn [obind].
      assert (Kc : cc_keyid cc = Some kid).
      { unfold cc_keyid, sp_get_keyid. rewrite value_of_get in K. change k_keyid with $"keyid". rewrite K. reflexivity. }
      destruct (rl_derive (sr_rl sr) r (CHeader h_signature)) as [[sigv|]|]; try reflexivity. cbn [obind].
      destruct (parse_signature_header sigv) as [[lb sg]|]; try reflexivity. cbn [obind].
      destruct (str_eqb (cc_get_label cc) lb); try reflexivity. cbn [negb]. rewrite Kc. cbn [obind].
      destruct (cc_alg cc); try reflexivity. cbn [obind]. cbn [with_keys vc_keys]. rewrite E. reflexivity. }
    unfold verify, verify_except_digest. rewrite X. reflexivity.
  Qed.
  Lemma other_keys (m : simple_keys) (calls : list key_call) (kid : str) :
    names_key sr r kid -> Forall (fun x => ~ concerns kid x) calls ->
    verify sr r (with_keys c (fold_left key_do calls m)) env = verify sr r (with_keys c m) env.
  Proof. intros N F. apply (same_keys _ _ kid N). now apply provide_others. Qed.
  Lemma provide_grows (calls : list key_call) (m : simple_keys) (kid : str) :
    Forall (fun x => ~ forgets kid x) calls -> incl (skp_provide m kid) (skp_provide (fold_left key_do calls m) kid).
  Proof.
    intro F. revert m. induction F as [|x l Hx F IH]; intros m; [apply incl_refl|]. cbn [fold_left]. eapply incl_tran; [|apply IH].
    destruct x as [i k|i|]; cbn [key_do].
    - rewrite skp_provide_add. destruct (str_eqb i kid) eqn:X; [|apply incl_refl]. apply str_eqb_eq in X. subst i.
      apply incl_appl, incl_refl.
    - rewrite skp_provide_remove. destruct (str_eqb i kid) eqn:X; [|apply incl_refl]. apply str_eqb_eq in X. subst i.
      exfalso. apply Hx. now left.
    - exfalso. apply Hx. now right.
  Qed.
  Lemma rotation (m : simple_keys) (calls : list key_call) (rem : Rem) (kid : str) :
    clocks_ok c env -> Forall (fun x => ~ forgets kid x) calls ->
    verify sr r (with_keys c m) env = Done (Ok (rem, kid)) ->
    exists rem', verify sr r (with_keys c (fold_left key_do calls m)) env = Done (Ok (rem', kid)).
  Proof.
    intros [K1 K2] F V.
    assert (A : accepts sr r (with_keys c m) env kid) by (apply verify_iff; eauto).
    destruct A as (cc & sig & A1 & A2 & (base & k & B1 & B2 & B3) & A4). apply verify_iff; [exact K1|exact K2|].
    exists cc, sig. split; [exact A1|]. split; [exact A2|]. split; [|exact A4]. exists base, k. split; [exact B1|]. split; [|exact B3].
    cbn [with_keys vc_keys] in *. now apply provide_grows.
  Qed.
End Keys.

(** ** C70 *)
Lemma same_header (q : rq) (m : mock) (h t : str) : same_message q m -> rq_derive q (CHeader h) = Done (Some t) -> mr_derive m (CHeader h) = Done (Some t).
Proof. intros SM H. apply rq_header_derive in H. apply mr_header_derive. left. now rewrite (sm_headers _ _ SM). Qed.
Lemma dc_derive_host (d : derived) (h h' : option str) (m : str) (u : url) : ~ is_authority (CDerived d) -> dc_derive d h m u = dc_derive d h' m u.
Proof.
  intro N. unfold dc_derive, dc_name. destruct d as [[b p]]. cbn [dc_item it_bare it_params]. destruct b as [| |n| | |]; try reflexivity.
  cbn [obind unwrap as_str].
  destruct (str_eqb n AT_AUTHORITY) eqn:E.
  - exfalso. apply N. apply str_eqb_eq in E. subst n. exists p. reflexivity.
  - reflexivity.
Qed.
Lemma same_derived (q : rq) (m : mock) (d : derived) : same_message q m -> ~ is_authority (CDerived d) -> mr_derive m (CDerived d) = rq_derive q (CDerived d).
Proof. intros SM N. cbn [mr_derive rq_derive]. rewrite (sm_method _ _ SM), (sm_url _ _ SM). now apply dc_derive_host. Qed.
Lemma not_readable (r : rq) (h : str) : ~ rq_readable r h -> rq_derive r (CHeader h) = Done None.
Proof.
  intro N. destruct (rq_derive r (CHeader h)) as [[t|]|] eqn:E; [|reflexivity|discriminate E]. exfalso. apply N.
  apply rq_header_derive in E. destruct E as [F P]. rewrite first_value_get in F. apply hm_get_all_head in F. destruct F as (vs & F).
  exists t, vs. auto.
Qed.
Lemma rq_digest_after (cr : client_request_like rq) (r r' : rq) (c : signing_config) (env : sign_env) (res : result unit error) :
  cr = rq_async \/ cr = rq_blocking -> sys_clock_ok (se_sys env) -> sign cr r c env = Done (r', res) ->
  ~ rq_readable r $"digest" -> sc_compute_digest c = true -> sc_digest c = sha256_digest \/ sc_digest c = sha512_digest ->
  rq_derive r' (CHeader $"digest") = Done (option_map (fun d => dg_name (sc_digest c) ++ $"=" ++ d) (snd (cr_compute_digest cr r (sc_digest c)))).
Proof.
  intros Hc S H N Cd Dd. assert (L : client_laws cr) by (destruct Hc as [-> | ->]; [exact rq_async_laws|exact rq_blocking_laws]).
  assert (Dr : rl_derive (cr_rl cr) = rq_derive) by (destruct Hc as [-> | ->]; reflexivity).
  pose proof (sign_digest cr L r r' c env res S) as X. cbv beta in X. rewrite Dr in X. rewrite X; clear X.
  - rewrite Cd. reflexivity.
  - now apply not_readable.
  - intros d E. assert (exists b, d = dg_digest (sc_digest c) b) as (b & ->).
    { destruct Hc as [-> | ->]; cbn [cr_compute_digest rq_async rq_blocking] in E;
        unfold rq_async_digest, rq_blocking_digest in E; destruct (rq_bod r) as [|b|[b|]]; cbn [snd] in E;
        first [discriminate E|injection E as <-; eauto]. }
    now apply digest_plain.
  - exact H.
Qed.

Lemma rq_no_body (cr : client_request_like rq) (r r' : rq) (c : signing_config) (env : sign_env) (res : result unit error) :
  cr = rq_async \/ cr = rq_blocking -> sys_clock_ok (se_sys env) -> rq_bod r = BNone \/ cr = rq_async /\ (exists o, rq_bod r = BStream o) ->
  sign cr r c env = Done (r', res) ->
  hm_get_all (rq_headers r') $"digest" = hm_get_all (rq_headers r) $"digest".
Proof.
  intros Hc S Nb H.
  assert (E : sign cr r c env = sign cr r (sc_set_compute_digest c false) env).
  { assert (D : forall x, rq_bod x = rq_bod r -> add_digest cr x c = Done x).
    { intros x Hx. rewrite <- Hx in Nb. unfold add_digest. destruct (sc_compute_digest c); [|reflexivity].
      destruct Nb as [Nb|(-> & o & Nb)]; [destruct Hc as [-> | ->]|];
        cbn [cr_rl rq_async rq_blocking rq_rl rl_has_component cr_compute_digest];
        unfold rq_has_component, rq_derive, rq_async_digest, rq_blocking_digest; rewrite Nb; cbn [obind];
        destruct (opt_bind _ _); reflexivity. }
    assert (A : add_auto_headers cr r c env = add_auto_headers cr r (sc_set_compute_digest c false) env).
    { unfold add_auto_headers.
      change (add_date cr r (sc_set_compute_digest c false) env) with (add_date cr r c env).
      destruct (add_date cr r c env) as [r1|] eqn:E1; [|reflexivity]. cbn [obind].
      change (add_host cr r1 (sc_set_compute_digest c false)) with (add_host cr r1 c).
      assert (B1 : rq_bod r1 = rq_bod r).
      { unfold add_date in E1. destruct (sc_add_date c); [|congruence].
        destruct (rl_has_component _ _ _) as [[|]|]; cbn [obind] in E1; [congruence| |discriminate].
        destruct (utc_now _); cbn [obind] in E1; [|discriminate]. destruct (unwrap _); cbn [obind] in E1; [|discriminate].
        injection E1 as <-. destruct Hc as [-> | ->]; reflexivity. }
      destruct (add_host cr r1 c) as [r2|] eqn:E2; [|reflexivity]. cbn [obind].
      assert (B2 : rq_bod r2 = rq_bod r).
      { unfold add_host in E2. destruct (sc_add_host c); [|congruence].
        destruct (rl_has_component _ _ _) as [[|]|]; cbn [obind] in E2; [congruence| |discriminate].
        destruct (cr_host cr r1); [|congruence]. destruct (unwrap _); cbn [obind] in E2; [|discriminate].
        injection E2 as <-. destruct Hc as [-> | ->]; exact B1. }
      rewrite (D r2 B2). reflexivity. }
    unfold sign. rewrite A. reflexivity. }
  rewrite E in H. destruct (rq_frame cr r r' _ env res Hc S H) as (_ & _ & _ & F). apply F.
  intros [M|[M|[_ [[M _]|[[M _]|[_ M]]]]]]; discriminate M.
Qed.

Lemma interop (cr : client_request_like rq) (r r' : rq) (m : mock) (c : signing_config) (env : sign_env) (vc : verifying_config)
    (venv : verify_env) (k : http_verifier) :
  cr = rq_async /\ not_streamed r \/ cr = rq_blocking ->
  sys_clock_ok (se_sys env) -> sign cr r c env = Done (r', Ok tt) -> same_message r' m ->
  sc_label c = $"sig" -> sc_nonce c <> Some [] ->
  Forall component_rep (sc_components c) -> (forall q, In q (sc_components c) -> ~ signature_header q /\ ~ is_authority q) ->
  first_value (rq_headers r) $"digest" = None -> sc_compute_digest c = true ->
  sc_digest c = sha256_digest \/ sc_digest c = sha512_digest -> vc_digests vc = default_digest_provider ->
  matching (sc_signature c) (se_rnd env) k -> In k (vc_keys vc (sc_key_id c)) ->
  sys_clock_ok (ve_sys venv) -> vc_validate_date vc = false ->
  (forall t, created_at c (seconds (se_sys env)) = Some t -> (t <= seconds (ve_sys venv))%Z) ->
  (forall t, expires_at c (seconds (se_sys env)) = Some t -> (seconds (ve_sys venv) <= t)%Z) ->
  (forall q, In q (vc_required vc) -> exists h, q = CHeader h /\ In q (sc_components c) /\ rq_readable r' h) ->
  verify mr_server m vc venv = Done (Ok (tt, sc_key_id c)).
Proof.
  intros Hs S H SM Lb Nn Rp Ns Dg Cd Dd Dp Km Kin S' Vd Tc Te Rq.
  assert (Hc : cr = rq_async \/ cr = rq_blocking) by tauto.
  assert (L : client_laws cr) by (destruct Hc as [-> | ->]; [exact rq_async_laws|exact rq_blocking_laws]).
  assert (Dr : rl_derive (cr_rl cr) = rq_derive) by (destruct Hc as [-> | ->]; reflexivity).
  assert (Dg' : ~ rq_readable r $"digest").
  { intros (v & vs & E & _). unfold first_value in Dg. rewrite E in Dg. discriminate Dg. }
  pose proof (rq_digest_after cr r r' c env _ Hc S H Dg' Cd Dd) as Dig.
  destruct (rq_frame cr r r' c env _ Hc S H) as (_ & _ & Bc & _).
  destruct (signed_facts cr L r r' c env S H Rp Nn) as (cs & base & sp & _ & B & D1 & _ & _ & D2).
  destruct (Km base) as (K1 & K2 & K3).
  assert (Pl : plain (signature_text c (se_rnd env) base)).
  { apply signature_text_plain; [rewrite Lb; apply plain_iff; reflexivity|exact K1]. }
  specialize (D2 Pl). rewrite Dr in D1, D2.
  destruct (sign_verify cr L r r' c env S H Rp Nn mr_server mr_server_laws m vc venv) with (k := k) as ([] & E); try assumption.
  - rewrite Dr, D1. eapply same_header; eassumption.
  - rewrite Dr, D2. eapply same_header; eassumption.
  - intros q Iq (v & Hv). rewrite Dr in *. cbn [sr_rl mr_server rl_derive mr_rl]. destruct q as [d|h].
    + apply same_derived; [exact SM|]. now apply Ns.
    + rewrite Hv. eapply same_header; eassumption.
  - intros q Iq. now apply Ns.
  - intros q Iq. destruct (Rq q Iq) as (h & -> & I1 & (v & vs & E1 & E2)). split; [eauto|]. split; [exact I1|]. rewrite Dr. exists v.
    apply rq_header_derive. split; [rewrite first_value_get; apply hm_get_all_head; eauto|exact E2].
  - unfold digest_ok, header_value. cbn [sr_rl mr_server rl_derive mr_rl sr_complete_with_digest].
    pose proof (sm_body _ _ SM) as Bm. unfold mr_complete_with_digest.
    assert (Cases : (exists b, rq_derive r' (CHeader $"digest") = Done (Some (dg_name (sc_digest c) ++ $"=" ++ dg_digest (sc_digest c) b)) /\ mr_body m = Some b)
                    \/ rq_derive r' (CHeader $"digest") = Done None /\ mr_body m = None /\ rq_bod r = BNone).
    { destruct Hs as [[-> Ns']| ->]; cbn [cr_compute_digest rq_async rq_blocking] in Dig; unfold rq_async_digest, rq_blocking_digest in Dig;
        destruct (rq_bod r) as [|b|[b|]] eqn:Eb; cbn [snd option_map body_content] in Dig, Bc;
        try (exfalso; now apply (Ns' _ Eb)); destruct (rq_bod r') as [|b'|[b'|]]; cbn [body_content] in Bc; try discriminate Bc;
        try contradiction Bm; try (right; solve [auto]); left; exists b'; (split; [|exact Bm]); rewrite Dig; congruence. }
    destruct Cases as [(b & Hb & ->)|(Hb & -> & Hn)].
    + left. eexists. split; [eapply same_header; eassumption|]. intros _. exists (sc_digest c), (dg_digest (sc_digest c) b). rewrite Dp.
      split; [now apply digest_first|reflexivity].
    + right. cbn [mr_derive]. rewrite <- first_value_get, (sm_headers _ _ SM). unfold first_value.
      rewrite (rq_no_body cr r r' c env _ Hc S (or_introl Hn) H). unfold first_value in Dg. destruct (hm_get_all (rq_headers r) $"digest"); [|discriminate Dg].
      split; reflexivity.
Qed.

Lemma authority_lost (cr : client_request_like rq) (r r' : rq) (m : mock) (c : signing_config) (env : sign_env) (vc : verifying_config)
    (venv : verify_env) (h : str) (q : component) :
  cr = rq_async \/ cr = rq_blocking -> sys_clock_ok (se_sys env) -> sign cr r c env = Done (r', Ok tt) ->
  first_value (mr_headers m) $"signature-input" = first_value (rq_headers r') $"signature-input" ->
  sc_nonce c <> Some [] -> Forall component_rep (sc_components c) ->
  is_authority q -> In q (sc_components c) -> u_host (rq_url r) = Some h ->
  forall kid, verify mr_server m vc venv <> Done (Ok (tt, kid)).
Proof.
  intros Hc S H Si Nn Rp (p & ->) Iq Hu kid V.
  assert (L : client_laws cr) by (destruct Hc as [-> | ->]; [exact rq_async_laws|exact rq_blocking_laws]).
  assert (Dr : rl_derive (cr_rl cr) = rq_derive) by (destruct Hc as [-> | ->]; reflexivity).
  destruct (rq_frame cr r r' c env _ Hc S H) as (_ & Eu & _ & _).
  destruct (signed_facts cr L r r' c env S H Rp Nn) as (cs & base & sp & _ & _ & D1 & P & Cs & _). rewrite Dr in D1.
  apply accepted_signature in V. destruct V as (cc & sig & (input & sigv & A1 & A2 & _) & base2 & k & (ids & vals & sp2 & _ & F & _) & _).
  assert (input = $"sig=" ++ sp) as ->.
  { unfold header_value in A1. cbn [sr_rl mr_server rl_derive mr_rl] in A1. apply rq_header_derive in D1. destruct D1 as [D1 Pl].
    rewrite <- Si in D1. assert (X : mr_derive m (CHeader $"signature-input") = Done (Some ($"sig=" ++ sp))) by (apply mr_header_derive; auto).
    rewrite X in A1. now injection A1 as <-. }
  pose proof (input_reads_unique _ _ _ P A2) as <-. cbn [cc_components] in F.
  assert (I : In (CDerived (Derived (Item (BString $"@authority") p))) cs).
  { apply Cs. split; [exact Iq|]. exists h. cbn [signed_view]. rewrite Dr. change (rq_derive r' (derived_named $"@authority" p) = Done (Some h)).
    rewrite rq_authority, Eu, Hu. reflexivity. }
  apply (in_map canon_component) in I. clear - F I. induction F as [|x v l vs Hx _ IH]; [destruct I|].
  destruct I as [->|I]; [|now apply IH]. revert Hx. cbn. discriminate.
Qed.

Lemma streamed_rejected (r r' : rq) (m : mock) (c : signing_config) (env : sign_env) (vc : verifying_config) (venv : verify_env) (o : option str) :
  sys_clock_ok (se_sys env) -> sign rq_async r c env = Done (r', Ok tt) -> same_message r' m -> rq_bod r = BStream o ->
  first_value (rq_headers r) $"digest" = None -> vc_require_digest vc = true -> clocks_ok vc venv ->
  forall kid, verify mr_server m vc venv <> Done (Ok (tt, kid)).
Proof.
  intros S H SM Bs Dg Rd [K1 K2] kid V.
  assert (A : accepts mr_server m vc venv kid) by (apply verify_iff; eauto).
  destruct A as (cc & sig & _ & _ & _ & _ & _ & D).
  assert (N : mr_derive m (CHeader $"digest") = Done None).
  { cbn [mr_derive]. rewrite <- first_value_get, (sm_headers _ _ SM). unfold first_value in *.
    rewrite (rq_no_body rq_async r r' c env _ (or_introl eq_refl) S (or_intror (conj eq_refl (ex_intro _ o Bs))) H).
    destruct (hm_get_all (rq_headers r) $"digest"); [reflexivity|discriminate Dg]. }
  destruct (rq_frame rq_async r r' c env _ (or_introl eq_refl) S H) as (_ & _ & Bc & _). rewrite Bs in Bc.
  pose proof (sm_body _ _ SM) as Bm. assert (X : exists b, mr_body m = Some b).
  { destruct (rq_bod r') as [|b|[b|]]; cbn [body_content] in Bc; [discriminate|eauto|eauto|contradiction]. }
  destruct X as (b & Eb). destruct D as [(dv & D & _)|[_ D]].
  - unfold header_value in D. cbn [sr_rl mr_server rl_derive mr_rl] in D. rewrite N in D. discriminate.
  - specialize (D Rd). cbn [sr_complete_with_digest mr_server] in D. unfold mr_complete_with_digest in D. rewrite Eb in D. discriminate D.
Qed.

(** ** C63 *)
From Verif Require Import SpecAuto.
Lemma Forall2_incl {A B} (P : A -> B -> Prop) (l l2 : list A) (vs : list B) : Forall2 P l vs -> incl l2 l -> exists vs2, Forall2 P l2 vs2.
Proof.
  intros F I. induction l2 as [|x l2 IH]; [exists []; constructor|].
  destruct IH as (vs2 & H2); [intros y Hy; apply I; now right|].
  assert (X : exists v, P x v).
  { assert (In x l) as J by (apply I; now left). clear - F J. induction F; [destruct J|]. destruct J as [->|J]; eauto. }
  destruct X as (v & Hv). exists (v :: vs2). now constructor.
Qed.
Lemma keeps_exists {A} (P : A -> Prop) (D : forall x, {P x} + {~ P x}) (l : list A) : exists l', keeps P l l'.
Proof.
  induction l as [|x l (l' & IH)]; [exists []; constructor|]. destruct (D x); [exists (x :: l')|exists l']; now constructor.
Qed.
Lemma has_value_dec (f : component -> outcome (option str)) (q : component) : {has_value f q} + {~ has_value f q}.
Proof.
  destruct (f q) as [[v|]|] eqn:E; [left; now exists v|right; intros (v & H); congruence..].
Qed.
Lemma relisted {R} (cr : client_request_like R) (L : client_laws cr) (r r' : R) (c : signing_config) (env : sign_env) (date : str)
    (l : list component) :
  auto_safe cr r c env -> (sc_add_date c = true -> http_date (seconds (se_utc env)) date) ->
  Forall proper_component (sc_components c) -> (forall m, legal_value (signature_text c (se_rnd env) m)) ->
  sign cr r c env = Done (r', Ok tt) -> incl l (sc_components c) ->
  exists r2, sign cr r (sc_set_components c l) env = Done (r2, Ok tt).
Proof.
  intros Sf Yr Pr Lg H I.
  assert (O : sign_outcome cr r c date (seconds (se_sys env)) (se_rnd env) (Ok tt)) by (apply outcome_iff; eauto).
  apply (outcome_iff cr L r (sc_set_components c l) env date); [exact Sf|exact Yr| |].
  { cbn [sc_set_components sc_components]. rewrite Forall_forall in *. auto. }
  inversion O as [| | | |cs base N1 N2 [Cv (ids & vals & sp & F1 & F2 & (its & pt & F3 & F4 & _) & _)] Lv E].
  set (view := completed cr r c date) in *.
  assert (X : exists cs2, covered view (sc_set_components c l) cs2 /\ incl cs2 cs).
  { unfold covered in *. cbn [sc_set_components sc_skip_missing sc_components]. destruct (sc_skip_missing c).
    - destruct (keeps_exists (has_value view) (has_value_dec view) l) as (cs2 & K). exists cs2. split; [exact K|].
      intros q Hq. apply (keeps_sub _ _ _ K) in Hq. apply (keeps_sub _ _ _ Cv). split; [apply I; tauto|tauto].
    - exists l. subst cs. auto. }
  destruct X as (cs2 & Cv2 & I2).
  destruct (Forall2_incl _ _ _ _ F1 I2) as (ids2 & G1). destruct (Forall2_incl _ _ _ _ F2 I2) as (vals2 & G2).
  assert (G3 : exists its2, Forall2 item_text (map component_item cs2) its2).
  { eapply Forall2_incl; [exact F3|]. intros i Hi. apply in_map_iff in Hi. destruct Hi as (q & <- & Hq). apply in_map. auto. }
  destruct G3 as (its2 & G3).
  eapply out_ok with (cs := cs2); [exact N1|exact N2| |apply Lg].
  split; [exact Cv2|]. exists ids2, vals2. eexists. split; [exact G1|]. split; [exact G2|]. split; [|reflexivity].
  exists its2, pt. split; [exact G3|]. split; [exact F4|reflexivity].
Qed.

(** ** C73 *)
Lemma plain_no_lf (v : str) : hvalue_visible v = true -> lf_count v = 0%nat.
Proof.
  intro H. apply lf_count_none. intro I. unfold hvalue_visible in H. rewrite forallb_forall in H. specialize (H _ I). vm_compute in H. discriminate H.
Qed.
Lemma mock_header_no_lf (r : mock) (h v : str) : mr_derive r (CHeader h) = Done (Some v) -> lf_count v = 0%nat.
Proof.
  cbn [mr_derive]. intro H. injection H as H. destruct (hm_get (mr_headers r) h) as [x|]; [|discriminate H]. cbn [option_map] in H.
  unfold hvalue_to_str in H. destruct (hvalue_visible x) eqn:V; injection H as <-; [now apply plain_no_lf|reflexivity].
Qed.
Lemma own_line_feeds (r r' : mock) (cs : list component) : same_line_feeds (signed_view mr_rl r r') (mr_derive r') cs.
Proof.
  intros q v w _. unfold signed_view. destruct q as [d|h].
  - cbn [mr_rl rl_derive]. congruence.
  - intros A B. apply mock_header_no_lf in B. rewrite B.
    destruct (list_eq_dec ascii_dec h $"signature"); [now apply mock_header_no_lf in A|].
    destruct (list_eq_dec ascii_dec h $"signature-input"); now apply mock_header_no_lf in A.
Qed.
Lemma signed_view_header (r r' : mock) (q : component) : signature_header q -> signed_view mr_rl r r' q = mr_derive r q.
Proof. intros [-> | ->]; reflexivity. Qed.
Lemma countersign (r r' : mock) (c : signing_config) (env : sign_env) (vc : verifying_config) (venv : verify_env) (kid : str) :
  sys_clock_ok (se_sys env) -> sign mr_client r c env = Done (r', Ok tt) ->
  Forall component_rep (sc_components c) -> sc_nonce c <> Some [] -> ~ In "="%char (sc_label c) -> plain (sc_label c) ->
  (forall m, let sig := sg_sign (sc_signature c) (se_rnd env) m in plain sig /\ clean_signature sig) ->
  verify mr_server r' vc venv = Done (Ok (tt, kid)) ->
  (forall q v, In q (sc_components c) -> signature_header q -> mr_derive r q = Done (Some v) -> mr_derive r' q = Done (Some v))
  \/ exists m1 m2 k, two_bases (signed_view mr_rl r r') (mr_derive r') c (seconds (se_sys env)) m1 m2
      /\ In k (vc_keys vc (sc_key_id c)) /\ vf_verify k m2 (sg_sign (sc_signature c) (se_rnd env) m1) = true.
Proof.
  intros Sy Sg Rp N Eq Pl Cl V.
  destruct (tamper_values mr_client mr_client_laws r r' c env Sy Sg Rp N mr_server mr_server_laws r' vc venv eq_refl eq_refl tt kid Eq Pl Cl
    (own_line_feeds r r' (sc_components c)) V) as [H|H]; [left|right; exact H].
  intros q v Hq Sh D. apply (H q v Hq). change (signed_view mr_rl r r' q = Done (Some v)). now rewrite signed_view_header.
Qed.
Lemma countersign_hmac (r r' : mock) (c : signing_config) (env : sign_env) (vc : verifying_config) (venv : verify_env) (kid key : str) :
  sys_clock_ok (se_sys env) -> sign mr_client r c env = Done (r', Ok tt) ->
  Forall component_rep (sc_components c) -> sc_nonce c <> Some [] -> ~ In "="%char (sc_label c) -> plain (sc_label c) ->
  sc_signature c = hmac_sha256_signer key -> (forall k, In k (vc_keys vc (sc_key_id c)) -> k = hmac_sha256_verifier key) ->
  verify mr_server r' vc venv = Done (Ok (tt, kid)) ->
  (forall q v, In q (sc_components c) -> signature_header q -> mr_derive r q = Done (Some v) -> mr_derive r' q = Done (Some v))
  \/ exists m1 m2, two_bases (signed_view mr_rl r r') (mr_derive r') c (seconds (se_sys env)) m1 m2 /\ hmac sha256 64 key m1 = hmac sha256 64 key m2.
Proof.
  intros Sy Sg Rp N Eq Pl Hs Hk V.
  destruct (tamper_hmac256 mr_client mr_client_laws mr_server mr_server_laws r r' c env r' vc venv tt kid key Sy Sg Rp N Eq Pl Hs Hk eq_refl eq_refl
    (own_line_feeds r r' (sc_components c)) V) as [H|H]; [left|right; exact H].
  intros q v Hq Sh D. apply (H q v Hq). change (signed_view mr_rl r r' q = Done (Some v)). now rewrite signed_view_header.
Qed.
