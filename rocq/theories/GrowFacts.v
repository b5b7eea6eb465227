(** Lemmas for C57-C62. *)
From Verif Require Import Samples SpecMore DateFacts MockFacts RoundTrip LineFacts CanonFacts SignFacts SignMore VerifyFacts.

(** ** C57 *)
Lemma same_not_params (a b : component) : same_component a b -> ~ is_query_params b -> ~ is_query_params a.
Proof.
  intros H N (p & ->). destruct b as [d|h]; [|exact H]. cbn in H. destruct H as [H _].
  apply N. destruct d as [[b p']]. cbn in H. destruct b; try contradiction; cbn in H; try discriminate.
  injection H as <-. now exists p'.
Qed.

Lemma keeps_fun {A} (P : A -> Prop) (l a b : list A) : keeps P l a -> keeps P l b -> a = b.
Proof.
  intro H. revert b. induction H as [|x l a Hx _ IH|x l a Hx _ IH]; intros b K; inversion K; subst; try reflexivity; try contradiction.
  - f_equal. now apply IH.
  - now apply IH.
Qed.
Lemma signature_base_fun (f : component -> outcome (option str)) (cs : list component) (p : params) (m m' : str) :
  signature_base f cs p m -> signature_base f cs p m' -> m = m'.
Proof.
  intros H H'. set (rl := RequestLike unit (fun _ => f) (fun _ _ => Panic)). set (cc := CanonConfig None cs p).
  assert (A : canonicalize rl tt cc = Done (Ok (m, cc_to_signature_input cc))) by (apply canonicalize_ok; split; [exact H|reflexivity]).
  assert (B : canonicalize rl tt cc = Done (Ok (m', cc_to_signature_input cc))) by (apply canonicalize_ok; split; [exact H'|reflexivity]).
  congruence.
Qed.
Lemma inner_text_fun (l : list item) (p : params) (t t' : str) : inner_text l p t -> inner_text l p t' -> t = t'.
Proof. intros A B. apply inner_text_iff in A, B. congruence. Qed.
Lemma signed_text_fun {R} (cr : client_request_like R) (e : signing_event R) (m m' : str) :
  signed_text cr e m -> signed_text cr e m' -> m = m'.
Proof.
  intros (cs & C & B) (cs' & C' & B').
  assert (cs' = cs) as ->. { unfold covered in *. destruct (sc_skip_missing (ev_config e)); [eapply keeps_fun; eassumption|congruence]. }
  eapply signature_base_fun; eassumption.
Qed.

Section History.
  Context {R : Type} (cr : client_request_like R) (L : client_laws cr).
  Lemma signed_dec (history : list (signing_event R)) (m : str) : Forall (happened cr) history ->
    (exists e, In e history /\ signed_text cr e m) \/ (forall e, In e history -> ~ signed_text cr e m).
  Proof.
    induction 1 as [|e h He _ IH]; [right; intros e []|].
    destruct He as (Ck & Sg & _). destruct (sign_ok_facts cr L _ _ _ _ Ck Sg) as (cs & base & sp & Cov & _ & _ & B & _).
    assert (T : signed_text cr e base) by (exists cs; split; [exact Cov|exact B]).
    destruct (list_eq_dec ascii_dec base m) as [<-|N]; [left; exists e; split; [now left|exact T]|].
    destruct IH as [(e' & I & T')|IH]; [left; exists e'; split; [now right|exact T']|].
    right. intros e' [<-|I] T'; [now apply N, (signed_text_fun cr e)|now apply (IH e')].
  Qed.

  Context {S Rem : Type} (sr : server_request_like S Rem).

  Lemma accepted_was_signed (history : list (signing_event R)) (s : S) (vc : verifying_config) (venv : verify_env) (rem : Rem) (kid : str) :
    Forall (happened cr) history ->
    (forall e, In e history -> single_line (ev_view cr e) /\ forall q, In q (sc_components (ev_config e)) -> ~ is_query_params q) ->
    single_line (rl_derive (sr_rl sr) s) ->
    sys_clock_ok (ve_sys venv) ->
    verify sr s vc venv = Done (Ok (rem, kid)) ->
    forged cr history sr s (vc_keys vc) kid \/
    exists e input cc cs, In e history /\ sc_key_id (ev_config e) = kid
      /\ header_value sr s $"signature-input" input /\ input_reads input cc
      /\ covered (ev_view cr e) (ev_config e) cs
      /\ same_params (cc_params cc) (ev_stamp e)
      /\ Forall2 (fun a b => same_component a b /\ exists v, rl_derive (sr_rl sr) s a = Done (Some v) /\ ev_view cr e b = Done (Some v))
           (cc_components cc) cs
      /\ (forall t, created_at (ev_config e) (seconds (se_sys (ev_env e))) = Some t -> (t <= seconds (ve_sys venv))%Z)
      /\ (forall t, expires_at (ev_config e) (seconds (se_sys (ev_env e))) = Some t -> (seconds (ve_sys venv) <= t)%Z).
  Proof.
    intros Hist Lines Sl Clock V.
    destruct (accepted_signature sr s vc venv rem kid V) as (cc & sig & Sh0 & base & k & B & Kin & Kv).
    pose proof Sh0 as (input & sigv & A1 & A2 & A3 & A4 & A5 & A6).
    destruct (signed_dec history base Hist) as [(e & He & cs & Cov & Be)|No]; [right|left; exists cc, sig, base, k; auto 6].
    rewrite Forall_forall in Hist. destruct (Hist e He) as (C1 & Sg & Rep & Nn). destruct (Lines e He) as [Le Nq].
    assert (Sub : forall q, In q cs -> In q (sc_components (ev_config e))).
    { unfold covered in Cov. destruct (sc_skip_missing (ev_config e)); [|now subst]. intros q Hq. now apply (keeps_sub _ _ _ Cov). }
    assert (Rcs : Forall component_rep cs).
    { rewrite Forall_forall in *. intros q Hq. apply Rep. now apply Sub. }
    destruct (input_reads_rep _ _ A2) as (_ & Rcc & Pcc).
    assert (Pst : params_rep (ev_stamp e)).
    { destruct Be as (_ & _ & sp & _ & _ & (its & pt & _ & Pt & _) & _). exact (stamp_rep _ _ pt Nn Pt). }
    set (rl := RequestLike unit (fun _ => ev_view cr e) (fun _ _ => Panic)).
    set (cc2 := CanonConfig None cs (ev_stamp e)).
    assert (K1 : exists si, canonicalize (sr_rl sr) s cc = Done (Ok (base, si))).
    { eexists. apply canonicalize_ok. split; [exact B|reflexivity]. }
    assert (K2 : exists si, canonicalize rl tt cc2 = Done (Ok (base, si))).
    { eexists. apply canonicalize_ok. split; [exact Be|reflexivity]. }
    destruct K1 as [si1 K1]. destruct K2 as [si2 K2].
    destruct (base_binds_config (sr_rl sr) rl s tt cc cc2 base si1 si2 Rcc Rcs Pcc Pst K1 K2) as [Sc Sp].
    assert (N1 : forall a, In a (cc_components cc) -> ~ is_query_params a).
    { cbn [cc2 cc_components] in Sc. clear - Sc Nq Sub.
      assert (N : forall b, In b cs -> ~ is_query_params b) by (intros b Hb; apply Nq, Sub, Hb). clear Nq Sub.
      induction Sc as [|a b l1 l2 Hab _ IH]; intros x Hx; [destruct Hx|]. destruct Hx as [<-|Hx].
      - eapply same_not_params; [exact Hab|]. apply N. now left.
      - apply IH; [|exact Hx]. intros y Hy. apply N. now right. }
    pose proof (base_binds_values (sr_rl sr) rl s tt cc cc2 base si1 si2 Rcc Rcs Pcc Pst K1 K2) as Vals.
    assert (T : times_ok venv cc /\ kid = sc_key_id (ev_config e)).
    { split.
      - apply verify_ok_inv in V. destruct V as (si & V & _). apply (signature_only_iff sr s vc venv si kid Clock) in V.
        destruct V as (cc' & sig' & (i' & s' & X1 & X2 & _) & T & _). unfold header_value in *. rewrite A1 in X1.
        injection X1 as <-. now rewrite (input_reads_unique _ _ _ A2 X2).
      - pose proof (stamp_keyid (ev_config e) (seconds (se_sys (ev_env e)))) as Q.
        assert (W : forall p p', same_params p p' -> forall x, value_of $"keyid" p = Some (BString x) -> value_of $"keyid" p' = Some (BString x)).
        { clear. intros p p' H. induction H as [|[a x] [b y] l l' [H1 H2] _ IH]; intros z; [discriminate|]. cbn [fst snd] in *. subst b.
          cbn [value_of]. destruct (list_eq_dec ascii_dec a $"keyid"); [|apply IH]. intro Z. injection Z as ->.
          destruct y; cbn in H2; try contradiction; try discriminate. injection H2 as ->. reflexivity. }
        specialize (W _ _ Sp _ A5). cbn [cc2 cc_params] in W. unfold ev_stamp in W. rewrite Q in W. congruence. }
    destruct T as [[T1 T2] ->].
    exists e, input, cc, cs. split; [exact He|]. split; [reflexivity|]. split; [exact A1|]. split; [exact A2|].
    split; [exact Cov|]. split; [exact Sp|]. split; [|split].
    - apply Vals.
      + intros q v Hq. apply Sl. now apply N1.
      + intros q v Hq. apply Le. apply Nq, Sub, Hq.
    - intros t Ht. apply T1.
      assert (W : forall p p', same_params p p' -> forall x, value_of $"created" p' = Some (BInteger x) -> value_of $"created" p = Some (BInteger x)).
      { clear. intros p p' H. induction H as [|[a x] [b y] l l' [H1 H2] _ IH]; intros z; [discriminate|]. cbn [fst snd] in *. subst b.
        cbn [value_of]. destruct (list_eq_dec ascii_dec a $"created"); [|apply IH]. intro Z. injection Z as ->.
        destruct x; cbn in H2; try contradiction; try discriminate. injection H2 as ->. reflexivity. }
      apply (W _ _ Sp). cbn [cc2 cc_params]. unfold ev_stamp. now rewrite stamp_created, Ht.
    - intros t Ht. apply T2.
      assert (W : forall p p', same_params p p' -> forall x, value_of $"expires" p' = Some (BInteger x) -> value_of $"expires" p = Some (BInteger x)).
      { clear. intros p p' H. induction H as [|[a x] [b y] l l' [H1 H2] _ IH]; intros z; [discriminate|]. cbn [fst snd] in *. subst b.
        cbn [value_of]. destruct (list_eq_dec ascii_dec a $"expires"); [|apply IH]. intro Z. injection Z as ->.
        destruct x; cbn in H2; try contradiction; try discriminate. injection H2 as ->. reflexivity. }
      apply (W _ _ Sp). cbn [cc2 cc_params]. unfold ev_stamp. now rewrite stamp_expires, Ht.
  Qed.
End History.

(** ** C58 *)
Lemma laxer_accepts {S Rem} (sr : server_request_like S Rem) (s : S) (c c' : verifying_config) (env : verify_env) (rem : Rem) (kid : str) :
  clocks_ok c env -> laxer c c' -> verify sr s c env = Done (Ok (rem, kid)) -> exists rem', verify sr s c' env = Done (Ok (rem', kid)).
Proof.
  intros [K1 K2] [X1 X2 X3 X4 X5 X6 X7] V.
  assert (A : accepts sr s c env kid) by (apply verify_iff; eauto). destruct A as (cc & sig & A1 & A2 & (base & k & B1 & B2 & B3) & A4 & A5 & A6).
  apply verify_iff; [exact K1|auto|]. exists cc, sig. split; [exact A1|]. split; [exact A2|]. split; [|split; [|split]].
  - exists base, k. auto.
  - rewrite Forall_forall in *. auto.
  - intro V'. destruct (A5 (X6 V')) as (d & D1 & D2 & D3). exists d. split; [exact D1|]. split; [exact D2|]. lia.
  - destruct A6 as [(dv & H & D)|[H D]]; [left; exists dv; rewrite X2|right]; auto.
Qed.

(** ** C59 *)
Section Same.
  Context {S Rem S' Rem' : Type} (sr : server_request_like S Rem) (sr' : server_request_like S' Rem') (s : S) (s' : S').
  Variables (c : verifying_config) (env : verify_env).
  Hypothesis Hin : rl_derive (sr_rl sr) s (CHeader $"signature-input") = rl_derive (sr_rl sr') s' (CHeader $"signature-input").
  Hypothesis Hsig : rl_derive (sr_rl sr) s (CHeader $"signature") = rl_derive (sr_rl sr') s' (CHeader $"signature").
  Hypothesis Hdig : rl_derive (sr_rl sr) s (CHeader $"digest") = rl_derive (sr_rl sr') s' (CHeader $"digest").
  Hypothesis Hcov : forall input cc q, header_value sr s $"signature-input" input -> input_reads input cc -> In q (cc_components cc) ->
    rl_derive (sr_rl sr) s q = rl_derive (sr_rl sr') s' q.
  Hypothesis Hbody : forall alg, fst (sr_complete_with_digest sr s alg) = fst (sr_complete_with_digest sr' s' alg).
  Lemma same_signature_only : verify_signature_only sr s c env = verify_signature_only sr' s' c env.
  Proof.
    unfold verify_signature_only, oobind, header_value in *. change h_signature_input with $"signature-input". change h_signature with $"signature".
    rewrite <- Hin, <- Hsig. destruct (rl_derive (sr_rl sr) s (CHeader $"signature-input")) as [[input|]|] eqn:E; cbn [obind]; try reflexivity.
    destruct (cc_parse input) as [[cc|e]|] eqn:P; cbn [obind]; try reflexivity.
    replace (canonicalize (sr_rl sr') s' cc) with (canonicalize (sr_rl sr) s cc); [reflexivity|].
    apply canonicalize_ext. intros q Hq. apply (Hcov input cc q eq_refl); [now apply cc_parse_iff|exact Hq].
  Qed.
  Lemma same_verdict : verdict_of (verify sr s c env) = verdict_of (verify sr' s' c env).
  Proof.
    unfold verify, verify_except_digest. rewrite same_signature_only. change h_digest with $"digest". rewrite <- Hdig.
    destruct (oobind (verify_signature_only sr' s' c env) _) as [[kid|]|]; cbn [obind]; try reflexivity.
    destruct (rl_derive (sr_rl sr) s (CHeader $"digest")) as [[dv|]|]; cbn [obind]; try reflexivity.
    - destruct (vc_validate_digest c); [|reflexivity]. destruct (first_digest _ _) as [[alg v]|]; [|reflexivity].
      specialize (Hbody alg). destruct (sr_complete_with_digest sr s alg) as [od rm], (sr_complete_with_digest sr' s' alg) as [od' rm'].
      cbn [fst] in Hbody. subst od'. destruct od as [d|]; [|reflexivity]. destruct (str_eqb v d); reflexivity.
    - destruct (vc_require_digest c); [|reflexivity]. specialize (Hbody sha256_digest).
      destruct (sr_complete_with_digest sr s sha256_digest) as [od rm], (sr_complete_with_digest sr' s' sha256_digest) as [od' rm'].
      cbn [fst] in Hbody. subst od'. destruct od; reflexivity.
  Qed.
End Same.

(** ** C61 *)
Section Back.
  Context {S Rem : Type} (sr : server_request_like S Rem) (s : S) (c : verifying_config) (env : verify_env) (res : result (Rem * str) Rem).
  Hypothesis Ck : clocks_ok c env.
  Hypothesis Done' : verify sr s c env = Done res.
  Lemma authentic_iff (kid : str) : accepts sr s (without_digest c) env kid <->
    verify_except_digest sr s c env = Done (Some kid) /\ rl_derive (sr_rl sr) s (CHeader $"digest") <> Panic.
  Proof.
    destruct Ck as [K1 K2]. rewrite (except_digest_iff sr s c env K1 K2 kid). unfold accepts, digest_ok, header_value, date_ok, key_accepts. cbn [without_digest vc_keys vc_digests vc_required vc_require_digest vc_validate_digest vc_validate_date vc_date_leeway].
    split.
    - intros (cc & sig & A1 & A2 & A3 & A4 & A5 & A6). split; [exists cc, sig; auto 6|]. destruct A6 as [(dv & -> & _)|[-> _]]; discriminate.
    - intros ((cc & sig & A1 & A2 & A3 & A4 & A5) & N). exists cc, sig. split; [exact A1|]. split; [exact A2|]. split; [exact A3|].
      split; [exact A4|]. split; [exact A5|]. destruct (rl_derive (sr_rl sr) s (CHeader $"digest")) as [[dv|]|]; [left; exists dv|right|contradiction]; split; try reflexivity; discriminate.
  Qed.
  Lemma back_unauthentic : (forall kid, ~ accepts sr s (without_digest c) env kid) -> res = Err (sr_complete sr s).
  Proof.
    intro N. revert Done'. unfold verify. destruct (verify_except_digest sr s c env) as [[kid|]|] eqn:E; cbn [obind]; [|congruence|discriminate].
    change h_digest with $"digest". destruct (rl_derive (sr_rl sr) s (CHeader $"digest")) as [od|] eqn:D; cbn [obind]; [|discriminate].
    exfalso. apply (N kid). apply authentic_iff. rewrite E, D. split; [reflexivity|discriminate].
  Qed.
  Lemma back_authentic (kid : str) : accepts sr s (without_digest c) env kid ->
    (forall dv alg v, header_value sr s $"digest" dv -> vc_validate_digest c = true -> first_entry (vc_digests c) dv alg v ->
       handed_back res = snd (sr_complete_with_digest sr s alg))
    /\ (forall dv, header_value sr s $"digest" dv -> vc_validate_digest c = false \/ (forall alg v, ~ first_entry (vc_digests c) dv alg v) ->
       handed_back res = sr_complete sr s)
    /\ (rl_derive (sr_rl sr) s (CHeader $"digest") = Done None ->
       handed_back res = if vc_require_digest c then snd (sr_complete_with_digest sr s sha256_digest) else sr_complete sr s).
  Proof.
    intro A. apply authentic_iff in A. destruct A as [A _]. revert Done'. unfold verify, header_value. rewrite A. cbn [obind]. change h_digest with $"digest".
    intro V. split; [|split].
    - intros dv alg v D Vd F. revert V. rewrite D, Vd. cbn [obind]. apply first_entry_iff in F. rewrite F.
      destruct (sr_complete_with_digest sr s alg) as [[d|] rm]; cbn [snd]; [destruct (str_eqb v d)|]; intro V; injection V as <-; reflexivity.
    - intros dv D Vd. revert V. rewrite D. cbn [obind]. destruct (vc_validate_digest c); [|intro V; injection V as <-; reflexivity].
      destruct Vd as [Vd|Vd]; [discriminate|]. destruct (first_digest _ _) as [[alg v]|] eqn:F; [|intro V; injection V as <-; reflexivity].
      apply first_entry_iff in F. now apply Vd in F.
    - intro D. revert V. rewrite D. cbn [obind]. destruct (vc_require_digest c); [|intro V; injection V as <-; reflexivity].
      destruct (sr_complete_with_digest sr s sha256_digest) as [[d|] rm]; cbn [snd]; intro V; injection V as <-; reflexivity.
  Qed.
End Back.

(** ** C57: the request types of the crate *)
Lemma rq_single_line (r : rq) : line_request (rq_method r) (rq_url r) -> single_line (rl_derive rq_rl r).
Proof. intros L q v N D. exact (rq_no_lf r q v L N D). Qed.
Lemma mr_single_line (r : mock) : line_request (mr_method r) (mr_url r) -> single_line (rl_derive mr_rl r).
Proof. intros L q v N D. exact (mr_no_lf r q v L N D). Qed.

Lemma ev_single_line {R} (cr : client_request_like R) (e : signing_event R) :
  single_line (rl_derive (cr_rl cr) (ev_before e)) -> single_line (rl_derive (cr_rl cr) (ev_after e)) -> single_line (ev_view cr e).
Proof.
  intros A B q v N D. unfold ev_view, signed_view in D. destruct q as [d|h]; [eapply B; eassumption|].
  destruct (list_eq_dec ascii_dec h _); [eapply A; eassumption|]. destruct (list_eq_dec ascii_dec h _); [eapply A|eapply B]; eassumption.
Qed.

(** ** C60 *)
Section Resign.
  Context {R : Type} (cr : client_request_like R) (L : client_laws cr) (G : digest_stable cr).
  Notation derive := (rl_derive (cr_rl cr)).
  Notation has := (rl_has_component (cr_rl cr)).
  (** Nothing is left to add. *)
  Definition settled (c : signing_config) (r : R) : Prop :=
    (sc_add_date c = true -> has_value (derive r) (CHeader $"date"))
    /\ (sc_add_host c = true -> has_value (derive r) (CHeader $"host") \/ derive r (CHeader $"host") = Done None /\ cr_host cr r = None)
    /\ (sc_compute_digest c = true -> has_value (derive r) (CHeader $"digest")
        \/ derive r (CHeader $"digest") = Done None /\ snd (cr_compute_digest cr r (sc_digest c)) = None).
  Lemma auto_settles (r r1 : R) (cs : list component) (c : signing_config) (env : sign_env) : auto_safe cr r c env ->
    add_auto_headers cr r c env = Done (r1, cs) -> settled c r1.
  Proof.
    intros (_ & _ & P1 & P2). unfold add_auto_headers.
    destruct (add_date cr r c env) as [ra|] eqn:Ea; cbn [obind]; [|discriminate].
    destruct (add_host cr ra c) as [rb|] eqn:Eb; cbn [obind]; [|discriminate].
    destruct (add_digest cr rb c) as [rc|] eqn:Ec; cbn [obind]; [|discriminate].
    destruct (if sc_skip_missing c then _ else _) as [cs'|]; cbn [obind]; [|discriminate]. intro H.
    assert (rc = r1) by congruence. subst rc. clear H cs cs'.
    assert (Da : sc_add_date c = true -> has_value (derive ra) (CHeader $"date")).
    { intro T. revert Ea. unfold add_date. rewrite T. destruct (has r (CHeader h_date)) as [[|]|] eqn:E; cbn [obind]; [| |discriminate].
      - intro X. injection X as <-. now apply (has_iff cr L) in E.
      - destruct (utc_now (se_utc env)) as [now|]; cbn [obind]; [|discriminate].
        destruct (unwrap _) as [v|] eqn:U; cbn [obind]; [|discriminate]. intro X. injection X as <-. exists v. apply (cl_set _ L).
        destruct (hvalue_parse (fmt_http_date (now / ns_per_sec))) as [w|] eqn:W; [|discriminate].
        injection U as <-. unfold hvalue_parse in W. destruct (hvalue_ok _); [|discriminate]. injection W as <-. apply fmt_plain. }
    assert (Ha : cr_host cr ra = cr_host cr r /\ snd (cr_compute_digest cr ra (sc_digest c)) = snd (cr_compute_digest cr r (sc_digest c))).
    { destruct (add_date_shape cr r ra c env Ea) as [->|(v & ->)]; [auto|]. split; [apply (cl_host _ L)|apply (cl_digest_set _ L)]. }
    destruct Ha as [Ha Ga].
    assert (Db : sc_add_host c = true -> has_value (derive rb) (CHeader $"host") \/ derive rb (CHeader $"host") = Done None /\ cr_host cr rb = None).
    { intro T. revert Eb. unfold add_host. rewrite T. destruct (has ra (CHeader h_host)) as [[|]|] eqn:E; cbn [obind]; [| |discriminate].
      - intro X. injection X as <-. left. now apply (has_iff cr L) in E.
      - destruct (cr_host cr ra) as [h|] eqn:Eh.
        + destruct (unwrap _) as [v|] eqn:U; cbn [obind]; [|discriminate]. intro X. injection X as <-. left. exists v. apply (cl_set _ L).
          unfold hvalue_parse in U. destruct (hvalue_ok h); [|discriminate]. injection U as <-. apply P1. congruence.
        + intro X. injection X as <-. right. split; [now apply (has_iff cr L) in E|exact Eh]. }
    assert (Sb : rb = ra \/ exists v, rb = cr_set_header cr ra h_host v) by exact (add_host_shape cr ra rb c Eb).
    assert (Dab : has_value (derive ra) (CHeader $"date") -> has_value (derive rb) (CHeader $"date")).
    { destruct Sb as [->|(v & ->)]; [trivial|]. unfold has_value. now rewrite (cl_set_other _ L) by discriminate. }
    assert (Gb : snd (cr_compute_digest cr rb (sc_digest c)) = snd (cr_compute_digest cr r (sc_digest c))).
    { destruct Sb as [->|(v & ->)]; [exact Ga|]. now rewrite (cl_digest_set _ L). }
    assert (Sc : (forall q, q <> CHeader h_digest -> derive r1 q = derive rb q) /\ cr_host cr r1 = cr_host cr rb
      /\ (sc_compute_digest c = true -> has_value (derive r1) (CHeader $"digest")
        \/ derive r1 (CHeader $"digest") = Done None /\ snd (cr_compute_digest cr r1 (sc_digest c)) = None)).
    { revert Ec. unfold add_digest. destruct (sc_compute_digest c); [|intro X; injection X as <-; repeat split; discriminate].
      destruct (has rb (CHeader h_digest)) as [[|]|] eqn:E; cbn [obind]; [| |discriminate].
      - intro X. injection X as <-. split; [reflexivity|]. split; [reflexivity|]. intros _. left. now apply (has_iff cr L) in E.
      - apply (has_iff cr L) in E. pose proof (fun q => cl_digest _ L rb (sc_digest c) q) as Q1. pose proof (ds_host _ G rb (sc_digest c)) as Q2. pose proof (ds_none _ G rb (sc_digest c)) as Q3.
        destruct (cr_compute_digest cr rb (sc_digest c)) as [rd [d|]]; cbn [fst snd] in *.
        + destruct (unwrap _) as [v|] eqn:U; cbn [obind]; [|discriminate]. intro X. injection X as <-. split; [|split].
          * intros q N. rewrite (cl_set_other _ L) by exact N. apply Q1.
          * rewrite (cl_host _ L). exact Q2.
          * intros _. left. exists v. apply (cl_set _ L). unfold hvalue_parse in U. destruct (hvalue_ok _); [|discriminate]. injection U as <-.
            apply P2. now rewrite <- Gb.
        + intro X. injection X as <-. split; [intros q _; apply Q1|]. split; [exact Q2|]. intros _. right. split; [rewrite Q1; exact E|now apply Q3]. }
    destruct Sc as (S1 & S2 & S3). unfold settled, has_value in *. rewrite !S1, S2 by discriminate. auto.
  Qed.
  Lemma settled_set (r : R) (c : signing_config) (h v : str) : h = $"signature" \/ h = $"signature-input" -> settled c r -> settled c (cr_set_header cr r h v).
  Proof.
    intros Hh. unfold settled, has_value. rewrite !(cl_set_other _ L), (cl_host _ L), (cl_digest_set _ L) by (destruct Hh as [-> | ->]; discriminate). trivial.
  Qed.
  Lemma settled_auto (r : R) (c : signing_config) (env : sign_env) : settled c r ->
    exists r1, (forall q, derive r1 q = derive r q)
      /\ add_auto_headers cr r c env
         = do cs <- (if sc_skip_missing c then ofilter (has r1) (sc_components c) else Done (sc_components c)); Done (r1, cs).
  Proof.
    intros (S1 & S2 & S3). unfold add_auto_headers.
    assert (E1 : add_date cr r c env = Done r).
    { unfold add_date. destruct (sc_add_date c); [|reflexivity]. rewrite (proj2 (has_iff cr L r (CHeader h_date) true)); [reflexivity|now apply S1]. }
    assert (E2 : add_host cr r c = Done r).
    { unfold add_host. destruct (sc_add_host c); [|reflexivity]. destruct (S2 eq_refl) as [H|[H ->]].
      - now rewrite (proj2 (has_iff cr L r (CHeader h_host) true)).
      - now rewrite (proj2 (has_iff cr L r (CHeader h_host) false)). }
    rewrite E1. cbn [obind]. rewrite E2. cbn [obind].
    assert (E3 : exists r1, (forall q, derive r1 q = derive r q) /\ add_digest cr r c = Done r1).
    { unfold add_digest. destruct (sc_compute_digest c); [|exists r; auto]. destruct (S3 eq_refl) as [H|[H N]].
      - exists r. rewrite (proj2 (has_iff cr L r (CHeader h_digest) true) H). auto.
      - rewrite (proj2 (has_iff cr L r (CHeader h_digest) false) H). cbn [obind].
        pose proof (fun q => cl_digest _ L r (sc_digest c) q) as Q.
        destruct (cr_compute_digest cr r (sc_digest c)) as [r2 o]; cbn [fst snd] in *. subst o. exists r2. auto. }
    destruct E3 as (r1 & Q & ->). exists r1. split; [exact Q|reflexivity].
  Qed.
  Lemma ofilter_ext (f g : component -> outcome bool) (l : list component) : (forall q, In q l -> f q = g q) -> ofilter f l = ofilter g l.
  Proof. induction l as [|q l IH]; intro H; cbn [ofilter]; [reflexivity|]. rewrite H by now left. rewrite IH; [reflexivity|]. intros x Hx. apply H. now right. Qed.

  Lemma resign (r r' : R) (c : signing_config) (env : sign_env) : auto_safe cr r c env ->
    (forall q, In q (sc_components c) -> ~ signature_header q) -> (forall m, plain (signature_text c (se_rnd env) m)) ->
    sign cr r c env = Done (r', Ok tt) ->
    exists r'', sign cr r' c env = Done (r'', Ok tt) /\ forall q, derive r'' q = derive r' q.
  Proof.
    intros Safe NoSig Pl Sg. unfold sign in Sg.
    destruct (add_auto_headers cr r c env) as [[r1 cs]|] eqn:A; cbn [obind] in Sg; [|discriminate].
    pose proof (auto_settles r r1 cs c env Safe A) as St.
    destruct (unix_timestamp (se_sys env)) as [ts|] eqn:T; cbn [obind] in Sg; [|discriminate].
    destruct (sign_canon c cs ts) as [cc|] eqn:Cc; [|discriminate].
    destruct (canonicalize (cr_rl cr) r1 cc) as [[[base si]|]|] eqn:Cn; cbn [obind] in Sg; try discriminate.
    destruct (si_to_string si) as [sit|] eqn:Si; cbn [obind] in Sg; [|discriminate].
    destruct (hvalue_parse sit) as [v|] eqn:Hv; [|discriminate].
    destruct (hvalue_parse (sig_header_text _ _)) as [w|] eqn:Hw; [|discriminate].
    assert (Er : cr_set_header cr (cr_set_header cr r1 h_signature_input v) h_signature w = r') by congruence.
    assert (St' : settled c r') by (rewrite <- Er; apply settled_set; [now left|apply settled_set; [now right|exact St]]).
    destruct (settled_auto r' c env St') as (r2 & Q & A2).
    assert (Same : forall q, ~ signature_header q -> derive r2 q = derive r1 q).
    { intros q N. rewrite Q, <- Er, !(cl_set_other _ L); [reflexivity|..]; intro; subst q; apply N; [now right|now left]. }
    assert (Sub : forall q, In q cs -> In q (sc_components c)).
    { apply (auto_covered cr L) in A. unfold covered in A. destruct (sc_skip_missing c); [|now subst]. intros q Hq. now apply (keeps_sub _ _ _ A). }
    assert (A3 : add_auto_headers cr r' c env = Done (r2, cs)).
    { rewrite A2. replace (if sc_skip_missing c then _ else _) with (@Done (list component) cs); [reflexivity|].
      revert A. unfold add_auto_headers. destruct (add_date cr r c env) as [ra|]; cbn [obind]; [|discriminate].
      destruct (add_host cr ra c) as [rb|]; cbn [obind]; [|discriminate]. destruct (add_digest cr rb c) as [rc|]; cbn [obind]; [|discriminate].
      destruct (sc_skip_missing c); [|cbn [obind]; congruence].
      destruct (ofilter (has rc) (sc_components c)) as [cs'|] eqn:F; cbn [obind]; [|discriminate]. intro H.
      assert (rc = r1 /\ cs' = cs) as [-> ->] by (split; congruence). rewrite <- F. apply ofilter_ext. intros q Hq.
      rewrite !(cl_has _ L). now rewrite Same by now apply NoSig. }
    assert (Cn2 : canonicalize (cr_rl cr) r2 cc = Done (Ok (base, si))).
    { rewrite <- Cn. apply canonicalize_ext. intros q Hq. apply Same. apply NoSig, Sub. revert Hq Cc. rewrite sign_canon_eq.
      destruct (match created_at c ts with Some t => _ | None => _ end); [discriminate|].
      destruct (match expires_at c ts with Some t => _ | None => _ end); [discriminate|]. intros Hq Cc. injection Cc as <-. exact Hq. }
    exists (cr_set_header cr (cr_set_header cr r2 h_signature_input v) h_signature w). split.
    { unfold sign. rewrite A3. cbn [obind]. rewrite T. cbn [obind]. rewrite Cc, Cn2. cbn [obind]. rewrite Si. cbn [obind]. now rewrite Hv, Hw. }
    assert (Pw : plain w).
    { revert Hw. unfold hvalue_parse. destruct (hvalue_ok _); [|discriminate]. intro H. injection H as <-. apply Pl. }
    assert (Pv : plain v).
    { apply canonicalize_ok in Cn. destruct Cn as [_ ->]. revert Cc. rewrite sign_canon_eq.
      destruct (match created_at c ts with Some t => _ | None => _ end); [discriminate|].
      destruct (match expires_at c ts with Some t => _ | None => _ end); [discriminate|]. intro Cc.
      assert (Ecc : cc = CanonConfig None cs (stamp c ts)) by congruence. subst cc.
      revert Si. unfold cc_to_signature_input, si_to_string, si_new. cbn [si_label si_list cc_get_label cc_label cc_components cc_params].
      destruct (ser_dict1 $"sig" (cl_new cs (stamp c ts))) as [t|] eqn:Et; cbn [unwrap obind]; [|discriminate]. intro X. injection X as ->.
      apply label_text in Et. destruct Et as (sp & Es & ->). revert Hv. unfold hvalue_parse. destruct (hvalue_ok _); [|discriminate].
      intro H. injection H as <-. eapply input_text_plain. exact Es. }
    intro q. destruct (header_dec q h_signature) as [->|N1].
    - rewrite <- Er, !(cl_set _ L) by exact Pw. reflexivity.
    - rewrite <- Er, !(cl_set_other _ L _ h_signature) by exact N1. destruct (header_dec q h_signature_input) as [->|N2].
      + rewrite !(cl_set _ L) by exact Pv. reflexivity.
      + rewrite !(cl_set_other _ L) by exact N2. apply Same. intros [->| ->]; [now apply N1|now apply N2].
  Qed.
End Resign.

(** ** C60: the request types of the crate *)
Lemma rq_async_stable : digest_stable rq_async.
Proof. constructor; intros r d; cbn [cr_host cr_compute_digest rq_async rq_async_digest fst snd]; auto. Qed.
Lemma rq_blocking_stable : digest_stable rq_blocking.
Proof.
  constructor; intros r d; cbn [cr_host cr_compute_digest rq_blocking]; unfold rq_blocking_digest; destruct (rq_bod r) as [|b|[b|]] eqn:E; cbn [fst snd];
    try reflexivity; try discriminate; now rewrite E.
Qed.
Lemma mr_client_stable : digest_stable mr_client.
Proof. constructor; intros r d; cbn [cr_host cr_compute_digest mr_client mr_compute_digest fst snd]; auto. Qed.

(** ** C62 *)
Lemma visible_utf8 (s : str) : Forall visible s -> utf8_text s.
Proof. intro H. apply utf8_ascii. eapply Forall_impl; [|exact H]. intros c V. unfold visible in V. unfold code. lia. Qed.
Lemma plain_utf8 (s : str) : plain s -> utf8_text s.
Proof.
  intro H. apply utf8_ascii. eapply Forall_impl; [|exact H]. intros c [V| ->]; [|reflexivity]. unfold visible in V. unfold code. lia.
Qed.
Lemma printable_utf8 (s : str) : printable s = true -> utf8_text s.
Proof.
  intro H. apply utf8_ascii. apply Forall_forall. intros c I. unfold printable in H. apply (forallb_In _ _ _ H) in I.
  pose proof (byte_all (fun c => implb (is_visible c) (code c <? 128)%N)) as B. specialize (B ltac:(vm_compute; reflexivity) c). cbv beta in B.
  rewrite I in B. cbn [implb] in B. lia.
Qed.
Lemma lines_utf8 (l : list str) : Forall utf8_text l -> utf8_text (lines l).
Proof.
  induction 1 as [|x l X _ IH]; [exact utf8_nil|]. cbn [lines]. destruct l; [exact X|].
  apply utf8_app; [exact X|]. apply utf8_app; [apply utf8_ascii; repeat constructor|exact IH].
Qed.
Lemma base_utf8 (f : component -> outcome (option str)) (cs : list component) (p : params) (m : str) :
  (forall q v, In q cs -> f q = Done (Some v) -> utf8_text v) -> signature_base f cs p m -> utf8_text m.
Proof.
  intros H (ids & vals & sp & I & V & T & ->). apply lines_utf8, Forall_app. split.
  - destruct T as (its & pt & T & _). clear - H I V T. revert ids vals I V its T.
    induction cs as [|q cs IH]; intros ids vals I V its T; inversion I; subst; inversion V; subst; [constructor|].
    cbn [map] in T. inversion T as [|? t ? ts Ti Ts]; subst. cbn [combine map fst snd]. constructor.
    + apply utf8_app; [|apply utf8_app; [apply utf8_ascii; repeat constructor|eapply H; [now left|eassumption]]].
      destruct q as [d|h]; cbn [identifier_text component_item] in *.
      * apply printable_utf8. match goal with X : item_text _ ?t |- printable ?t = true => apply item_text_iff in X; now apply printable_ser_item in X end.
      * subst. destruct Ti as (a & b & (Vh & _) & _). cbn [it_bare] in *.
        apply utf8_app; [apply utf8_ascii; repeat constructor|]. apply utf8_app; [now apply visible_utf8|apply utf8_ascii; repeat constructor].
    + eapply IH; try eassumption. intros x v Hx. apply H. now right.
  - constructor; [|constructor]. apply utf8_app; [apply utf8_ascii; repeat constructor|]. apply printable_utf8. eapply inner_text_printable. exact T.
Qed.
Lemma utf8_opt_str (p : str) (o : option str) : utf8_text p -> utf8_opt o -> utf8_text (opt_str p o).
Proof. intros P O. destruct o; cbn [opt_str]; [now apply utf8_app|exact utf8_nil]. Qed.
Lemma utf8_lit (s : str) : forallb (fun c => (code c <? 128)%N) s = true -> utf8_text s.
Proof. intro H. apply utf8_ascii, Forall_forall. intros c I. apply (forallb_In _ _ _ H) in I. lia. Qed.
Lemma url_utf8 (m : str) (u : url) : utf8_line m u -> utf8_text (url_to_string u).
Proof.
  intros (_ & S & N & P & H & Pa & Q & F). unfold url_to_string.
  apply utf8_app; [exact S|]. apply utf8_app; [now apply utf8_lit|]. apply utf8_app.
  { destruct (u_has_authority u); [|destruct (starts_with _ _); [now apply utf8_lit|exact utf8_nil]].
    apply utf8_app; [now apply utf8_lit|]. apply utf8_app.
    - unfold url_userinfo. assert (X : utf8_text (u_username u ++ opt_str $":" (u_password u) ++ $"@")).
      { apply utf8_app; [exact N|]. apply utf8_app; [apply utf8_opt_str; [now apply utf8_lit|exact P]|now apply utf8_lit]. }
      destruct (u_username u), (u_password u); try exact X. exact utf8_nil.
    - apply utf8_app; [apply utf8_opt_str; [exact utf8_nil|exact H]|]. destruct (u_port u) as [n|]; [|exact utf8_nil].
      apply utf8_app; [now apply utf8_lit|]. apply utf8_ascii, Forall_forall. intros c I. pose proof (dec_of_N_digits n) as D.
      apply (forallb_In _ _ _ D) in I.
      pose proof (byte_all (fun c => implb (is_digit c) (code c <? 128)%N)) as B. specialize (B ltac:(vm_compute; reflexivity) c). cbv beta in B.
      rewrite I in B. cbn [implb] in B. lia. }
  apply utf8_app; [exact Pa|]. apply utf8_app; apply utf8_opt_str; try assumption; now apply utf8_lit.
Qed.
Lemma pairs_utf8 (u : url) (p : str * str) : In p (query_pairs u) -> utf8_text (snd p).
Proof.
  unfold query_pairs, form_parse. intro H. apply in_map_iff in H. destruct H as (x & <- & _). unfold form_pair.
  destruct (split_once "=" x) as [[k v]|]; cbn [snd]; eapply lossy_is_text; apply lossy_iff; reflexivity.
Qed.
Lemma derive_utf8 (d : derived) (host : option str) (m : str) (u : url) (t : str) :
  utf8_line m u -> utf8_opt host -> dc_derive d host m u = Done (Some t) -> utf8_text t.
Proof.
  intros L H D. pose proof L as (Lm & S & _ & _ & _ & Pa & Q & _). unfold dc_derive, dc_name in D.
  destruct (as_str (it_bare (dc_item d))) as [n|] eqn:E; cbn [unwrap obind] in D; [|discriminate].
  pose proof (url_utf8 m u L) as U.
  repeat match type of D with context [if ?b then _ else _] => destruct b end; try (injection D as <-; assumption); try discriminate.
  - destruct host as [h|]; [|discriminate]. injection D as <-. exact H.
  - destruct (u_query u) as [q|]; [|discriminate]. injection D as <-. change ("?"%char :: q) with ($"?" ++ q). apply utf8_app; [now apply utf8_lit|exact Q].
  - unfold derive_query_params in D. destruct (dc_param d $"name") as [f|]; [|discriminate]. injection D as <-.
    rewrite <- lines_join. apply lines_utf8, Forall_forall. intros x Hx. apply in_map_iff in Hx. destruct Hx as (p & <- & Hp).
    apply filter_In in Hp. apply (pairs_utf8 u), Hp.
Qed.
Lemma rq_base_utf8 (r : rq) (cc : canon_config) (base : str) (si : signature_input) :
  utf8_line (rq_method r) (rq_url r) -> canonicalize rq_rl r cc = Done (Ok (base, si)) -> utf8_text base.
Proof.
  intros L C. apply canonicalize_ok in C. destruct C as [C _]. eapply base_utf8; [|exact C]. intros [d|h] v _ D; cbn [rq_rl rl_derive] in D.
  - cbn [rq_derive] in D. eapply derive_utf8; [exact L| |exact D]. apply L.
  - apply rq_header_derive in D. now apply plain_utf8.
Qed.
Lemma mr_base_utf8 (r : mock) (cc : canon_config) (base : str) (si : signature_input) :
  utf8_line (mr_method r) (mr_url r) -> canonicalize mr_rl r cc = Done (Ok (base, si)) -> utf8_text base.
Proof.
  intros L C. apply canonicalize_ok in C. destruct C as [C _]. eapply base_utf8; [|exact C]. intros [d|h] v _ D; cbn [mr_rl rl_derive] in D.
  - cbn [mr_derive] in D. eapply derive_utf8; [exact L| |exact D]. exact I.
  - apply mr_header_derive in D. destruct D as [[_ P]|[-> _]]; [now apply plain_utf8|exact utf8_nil].
Qed.

(** ** C20: the default digests *)
Lemma upper_lower_sha (n u l : str) : forallb (fun c => Ascii.eqb (to_upper c) c) u = true -> l = map to_lower u ->
  (map to_upper n = u <-> map to_lower n = l).
Proof.
  intros Hu ->. 
  assert (X : forall c d, to_upper d = d -> (to_upper c = d <-> to_lower c = to_lower d)).
  { intros c d E.
    assert (Y1 : forallb (fun c => Ascii.eqb (to_lower (to_upper c)) (to_lower c)) all_bytes = true) by (vm_compute; reflexivity).
    assert (Y2 : forallb (fun c => Ascii.eqb (to_upper (to_lower c)) (to_upper c)) all_bytes = true) by (vm_compute; reflexivity).
    pose proof (byte_all _ Y1 c) as Z1. pose proof (byte_all _ Y2 c) as Z2. pose proof (byte_all _ Y2 d) as Z3. cbv beta in Z1, Z2, Z3.
    apply Ascii.eqb_eq in Z1, Z2, Z3. split; [intros <-; now rewrite Z1|]. intro H. rewrite <- Z2, H, Z3. exact E. }
  revert u Hu. induction n as [|c n IH]; intros [|d u] Hu; cbn [map]; try (split; [discriminate|discriminate]); [tauto|].
  cbn [forallb] in Hu. apply andb_prop in Hu. destruct Hu as [H1 H2]. apply Ascii.eqb_eq in H1. specialize (X c d H1). specialize (IH u H2).
  split; intro H; injection H as A B; f_equal; tauto.
Qed.
Lemma default_digests (n : str) (d : http_digest) :
  default_digest_provider n = Some d <->
  Forall2 lower_of n $"sha-256" /\ d = sha256_digest \/ Forall2 lower_of n $"sha-512" /\ d = sha512_digest.
Proof.
  rewrite !Forall2_lower.
  assert (A : map to_upper n = $"SHA-256" <-> map to_lower n = $"sha-256") by (apply upper_lower_sha; reflexivity).
  assert (B : map to_upper n = $"SHA-512" <-> map to_lower n = $"sha-512") by (apply upper_lower_sha; reflexivity).
  unfold default_digest_provider, to_ascii_uppercase.
  destruct (str_eqb (map to_upper n) $"SHA-256") eqn:E1.
  - apply str_eqb_eq in E1. apply A in E1. rewrite E1. split; [intro H; injection H as <-; auto|intros [[_ ->]|[H _]]; [reflexivity|discriminate]].
  - destruct (str_eqb (map to_upper n) $"SHA-512") eqn:E2.
    + apply str_eqb_eq in E2. apply B in E2. rewrite E2. split; [intro H; injection H as <-; auto|intros [[H _]|[_ ->]]; [discriminate|reflexivity]].
    + apply str_eqb_neq in E1. apply str_eqb_neq in E2. split; [discriminate|]. intros [[H _]|[H _]]; symmetry in H; [apply A in H|apply B in H]; contradiction.
Qed.

Lemma same_verdicts {S Rem S' Rem'} (sr : server_request_like S Rem) (sr' : server_request_like S' Rem') (s : S) (s' : S')
    (c : verifying_config) (env : verify_env) :
  (forall h, In h [$"signature-input"; $"signature"; $"digest"] -> rl_derive (sr_rl sr) s (CHeader h) = rl_derive (sr_rl sr') s' (CHeader h)) ->
  (forall input cc q, header_value sr s $"signature-input" input -> input_reads input cc -> In q (cc_components cc) ->
     rl_derive (sr_rl sr) s q = rl_derive (sr_rl sr') s' q) ->
  (forall alg, fst (sr_complete_with_digest sr s alg) = fst (sr_complete_with_digest sr' s' alg)) ->
  verdict_of (verify sr s c env) = verdict_of (verify sr' s' c env).
Proof.
  intros H A B. apply same_verdict; [apply H; now left|apply H; right; now left|apply H; right; right; now left|exact A|exact B].
Qed.
Lemma uncovered_header (r : mock) (h v input : str) (cc : canon_config) (c : verifying_config) (env : verify_env) :
  ~ In h [$"signature-input"; $"signature"; $"digest"] -> header_value mr_server r $"signature-input" input ->
  input_reads input cc -> ~ In (CHeader h) (cc_components cc) ->
  verdict_of (verify mr_server (mr_set_header r h v) c env) = verdict_of (verify mr_server r c env).
Proof.
  intros N I P Nc. symmetry. pose proof (cl_set_other _ mr_client_laws r h v) as O. cbn [cr_rl mr_client cr_set_header] in O.
  apply same_verdicts; cbn [sr_rl mr_server].
  - intros x Hx. symmetry. apply O. intro E. injection E as ->. contradiction.
  - intros i cc' q I' P' Hq. symmetry. apply O. intros ->. unfold header_value in *. rewrite I in I'. injection I' as <-.
    rewrite (input_reads_unique _ _ _ P' P) in Hq. contradiction.
  - reflexivity.
Qed.
Definition dup_conf : signing_config := sc_set_compute_digest (sc_set_components m_sconf [CHeader h_date; CHeader h_date]) false.
Definition dup_input : str := s2b "sig=(""date"" ""date"");alg=""toy"";created=1618884475;expires=1618884535;keyid=""k1""".
Definition dup_signed : mock := mr_set_header (mr_set_header m_req h_signature_input dup_input) h_signature $"sig=:xpMc:".
Lemma duplicates_accepted :
  exists (r r' : mock) (c : signing_config) (env : sign_env) (vc : verifying_config) (venv : verify_env) input cc,
  sign mr_client r c env = Done (r', Ok tt) /\ header_value mr_server r' $"signature-input" input /\ input_reads input cc
  /\ ~ NoDup (cc_components cc) /\ verify mr_server r' vc venv = Done (Ok (tt, sc_key_id c)).
Proof.
  exists m_req, dup_signed, dup_conf, m_senv, (vc_set_require_digest m_vconf false), m_venv, dup_input.
  eexists. split; [vm_compute; reflexivity|]. split; [reflexivity|]. split; [apply cc_parse_iff; vm_compute; reflexivity|].
  split; [|vm_compute; reflexivity]. cbn [cc_components]. intro H. inversion H as [|x l Hx _]. apply Hx. now left.
Qed.
Lemma mock_digest_plain (r : mock) (c : signing_config) (d : str) : sc_digest c = sha256_digest ->
  snd (cr_compute_digest mr_client r (sc_digest c)) = Some d -> plain (dg_name (sc_digest c) ++ $"=" ++ d).
Proof.
  intros -> H. cbn [mr_client cr_compute_digest mr_compute_digest snd] in H. destruct (mr_body r) as [b|]; cbn [option_map] in H; [|discriminate].
  unfold sha256_digest in *. cbn [dg_digest dg_name] in *. generalize dependent (sha256 b). intros x H. injection H as <-.
  apply Forall_app. split; [apply plain_iff; reflexivity|]. apply Forall_app. split; [apply plain_iff; reflexivity|]. apply b64_plain.
Qed.
