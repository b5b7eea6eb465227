(** Accepted requests and the calls that signed them (C77). *)
From Verif Require Export SpecTrust TargetFacts.
From Verif Require Import LineFacts RoundTrip ReqFacts SignMore GrowFacts VerifyFacts MoreVerify SpecFacts Base64Facts ReadFacts.

Lemma first_entry_fun (dp : digest_provider) (h : str) (a b : http_digest) (v w : str) : first_entry dp h a v -> first_entry dp h b w -> a = b /\ v = w.
Proof. intros H K. apply first_entry_iff in H, K. rewrite H in K. now injection K as <- <-. Qed.
Lemma sha_names_differ : sha256_digest <> sha512_digest.
Proof. intro E. apply (f_equal dg_name) in E. discriminate. Qed.
Lemma digest_hash (d : http_digest) (b b' v : str) : d = sha256_digest \/ d = sha512_digest -> v = dg_digest d b' ->
  d = sha256_digest /\ v = b64_bits (sha256 b) \/ d = sha512_digest /\ v = b64_bits (sha512 b) -> same_hash d b b'.
Proof.
  intros D -> [(-> & E)|(-> & E)]; [left|right]; (split; [reflexivity|]); cbn [dg_digest sha256_digest sha512_digest] in E;
    rewrite b64_bits_encode in E; now apply b64_encode_inj in E.
Qed.

Section Trust.
  Context {R : Type} (cr : client_request_like R) (L : client_laws cr) (meth : R -> str) (ur : R -> url) (hp : host_parser) (K : host_laws hp).
  Let derive := rl_derive (cr_rl cr).
  Hypothesis line : forall r, derive r (derived_named $"@method" []) = Done (Some (meth r))
    /\ (forall t, derive r (derived_named $"@target-uri" []) = Done (Some t) <-> url_text (ur r) t)
    /\ (line_request (meth r) (ur r) -> single_line (derive r)).
  Hypothesis frame : forall e, happened cr e -> meth (ev_after e) = meth (ev_before e) /\ ur (ev_after e) = ur (ev_before e).

  Lemma view_value (e : signing_event R) (h v : str) : h <> $"signature-input" -> h <> $"signature" ->
    ev_view cr e (CHeader h) = Done (Some v) <-> derive (ev_after e) (CHeader h) = Done (Some v).
  Proof. intros N1 N2. unfold ev_view, signed_view. destruct (list_eq_dec _ h _); [contradiction|]. destruct (list_eq_dec _ h _); [contradiction|reflexivity]. Qed.

  Lemma trusted (history : list (signing_event R)) (s : mock) (vc : verifying_config) (venv : verify_env) (kid : str) :
    Forall (happened cr) history ->
    (forall e, In e history -> covers_message (ev_config e) /\ proper_line hp (meth (ev_before e)) (ur (ev_before e))
                               /\ derive (ev_before e) (CHeader $"digest") = Done None) ->
    proper_line hp (mr_method s) (mr_url s) -> sys_clock_ok (ve_sys venv) ->
    vc_validate_digest vc = true -> vc_digests vc = default_digest_provider ->
    verify mr_server s vc venv = Done (Ok (tt, kid)) ->
    forged cr history mr_server s (vc_keys vc) kid
    \/ exists e, In e history /\ sc_key_id (ev_config e) = kid /\ valid_at e (ve_sys venv)
        /\ mr_method s = meth (ev_before e) /\ mr_url s = ur (ev_before e)
        /\ (forall h v, In (CHeader h) (sc_components (ev_config e)) -> h <> $"signature-input" -> h <> $"signature" ->
              derive (ev_after e) (CHeader h) = Done (Some v) -> mr_derive s (CHeader h) = Done (Some v))
        /\ (forall b', snd (cr_compute_digest cr (ev_before e) (sc_digest (ev_config e))) = Some (dg_digest (sc_digest (ev_config e)) b') ->
              exists b, mr_body s = Some b /\ same_hash (sc_digest (ev_config e)) b b')
        /\ (In (CHeader $"digest") (vc_required vc) -> derive (ev_after e) (CHeader $"digest") <> Done None).
  Proof.
    intros Hist Ev (Ms & ts & Us) Clock Vd Dd V.
    assert (Lines : forall e, In e history -> single_line (ev_view cr e) /\ forall q, In q (sc_components (ev_config e)) -> ~ is_query_params q).
    { intros e He. destruct (Ev e He) as ((_ & _ & _ & Nq & _) & (Me & t & Ue) & _). split; [|exact Nq].
      rewrite Forall_forall in Hist. destruct (frame e (Hist e He)) as [F1 F2].
      assert (Le : line_request (meth (ev_before e)) (ur (ev_before e))) by now apply (special_line hp t).
      apply ev_single_line; apply line; [exact Le|]. now rewrite F1, F2. }
    assert (Ls : single_line (rl_derive (sr_rl mr_server) s)) by (apply mr_single_line; now apply (special_line hp ts)).
    destruct (accepted_was_signed cr L mr_server history s vc venv tt kid Hist Lines Ls Clock V) as [F|H]; [now left|right].
    destruct H as (e & input & cc & cs & He & Hk & Hin & Hcc & Cov & _ & F2 & T1 & T2).
    destruct (Ev e He) as ((C1 & C2 & C3 & Nq & C5 & C6) & (Me & t & Ue) & D0).
    pose proof Hist as Hist'. rewrite Forall_forall in Hist'. specialize (Hist' e He). destruct (frame e Hist') as [E1 E2].
    assert (Val : forall q v, In q (sc_components (ev_config e)) -> ev_view cr e q = Done (Some v) -> mr_derive s q = Done (Some v)).
    { intros q v Hq Hv. assert (Hc : In q cs).
      { unfold covered in Cov. destruct (sc_skip_missing (ev_config e)); [|now subst]. apply (keeps_sub _ _ _ Cov). split; [exact Hq|]. now exists v. }
      clear - F2 Hc Hv. induction F2 as [|a b la lb (Sc & w & W1 & W2) _ IH]; [destruct Hc|]. destruct Hc as [->|Hc]; [|now apply IH].
      rewrite W2 in Hv. injection Hv as ->. rewrite <- W1. symmetry. exact (sl_same mr_server mr_server_laws s a q Sc). }
    assert (Hd : forall h v, In (CHeader h) (sc_components (ev_config e)) -> h <> $"signature-input" -> h <> $"signature" ->
              derive (ev_after e) (CHeader h) = Done (Some v) -> mr_derive s (CHeader h) = Done (Some v)).
    { intros h v Hh N1 N2 D. apply Val; [exact Hh|]. now apply view_value. }
    assert (Dg : forall b', snd (cr_compute_digest cr (ev_before e) (sc_digest (ev_config e))) = Some (dg_digest (sc_digest (ev_config e)) b') ->
      derive (ev_after e) (CHeader $"digest") = Done (Some (dg_name (sc_digest (ev_config e)) ++ $"=" ++ dg_digest (sc_digest (ev_config e)) b'))).
    { intros b' B. destruct Hist' as (S1 & S2 & _). unfold derive.
      pose proof (sign_digest cr L (ev_before e) (ev_after e) (ev_config e) (ev_env e) (Ok tt) S1 D0) as X. rewrite X; [now rewrite C5, B| |exact S2].
      intros d Ed. rewrite Ed in B. injection B as ->. now apply digest_plain. }
    exists e. split; [exact He|]. split; [exact Hk|]. split; [split; assumption|]. split; [|split; [|split; [exact Hd|split]]].
    - assert (X : mr_derive s (derived_named $"@method" []) = Done (Some (meth (ev_before e)))).
      { apply Val; [exact C1|]. unfold ev_view, signed_view, derived_named. rewrite <- E1. apply line. }
      destruct (mr_line s []) as (Y & _). cbv zeta in Y. rewrite Y in X. now injection X.
    - destruct (url_text_exists (ur (ev_before e))) as (x & X & _).
      assert (Y : mr_derive s (derived_named $"@target-uri" []) = Done (Some x)).
      { apply Val; [exact C2|]. unfold ev_view, signed_view, derived_named. apply line. now rewrite E2. }
      destruct (mr_line s []) as (_ & _ & _ & _ & Z & _). apply Z in Y. now apply (text_determines hp ts t x).
    - intros b' B. apply Dg in B. apply (Hd $"digest") in B; [|exact C3|discriminate|discriminate].
      destruct (mock_digest s vc venv kid _ Vd Dd V B) as (b & alg & v & Hb & Fe & Hv). exists b. split; [exact Hb|].
      destruct (first_entry_fun _ _ _ _ _ _ Fe (digest_first (sc_digest (ev_config e)) b' C6)) as [-> Ev']. now apply (digest_hash _ b b' v).
    - intros Rq N. destruct (required_listed mr_server s vc venv tt kid (CHeader $"digest") V Rq) as (i' & cc' & I1 & I2 & I3).
      { apply component_repb_rep. reflexivity. }
      unfold header_value in *. rewrite Hin in I1. injection I1 as <-. rewrite (input_reads_unique _ _ _ I2 Hcc) in I3.
      assert (X : exists v, ev_view cr e (CHeader $"digest") = Done (Some v)).
      { clear - F2 I3. induction F2 as [|a b la lb (Sc & w & W1 & W2) _ IH]; [destruct I3|]. destruct I3 as [->|I3]; [|now apply IH].
        destruct b as [d|h]; [destruct Sc|]. cbn [same_component] in Sc. subst h. now exists w. }
      destruct X as [v X]. apply view_value in X; [|discriminate|discriminate]. change (derive (ev_after e) (CHeader $"digest") = Done (Some v)) in X. rewrite N in X. discriminate X.
  Qed.
End Trust.

Lemma mr_trusted (hp : host_parser) (history : list (signing_event mock)) (s : mock) (vc : verifying_config) (venv : verify_env) (kid : str) : host_laws hp ->
  Forall (happened mr_client) history ->
  (forall e, In e history -> covers_message (ev_config e) /\ proper_line hp (mr_method (ev_before e)) (mr_url (ev_before e))
                             /\ mr_derive (ev_before e) (CHeader $"digest") = Done None) ->
  proper_line hp (mr_method s) (mr_url s) -> sys_clock_ok (ve_sys venv) ->
  vc_validate_digest vc = true -> vc_digests vc = default_digest_provider ->
  verify mr_server s vc venv = Done (Ok (tt, kid)) ->
  forged mr_client history mr_server s (vc_keys vc) kid
  \/ exists e, In e history /\ sc_key_id (ev_config e) = kid /\ valid_at e (ve_sys venv)
      /\ mr_method s = mr_method (ev_before e) /\ mr_url s = mr_url (ev_before e)
      /\ (forall h v, In (CHeader h) (sc_components (ev_config e)) -> h <> $"signature-input" -> h <> $"signature" ->
            mr_derive (ev_after e) (CHeader h) = Done (Some v) -> mr_derive s (CHeader h) = Done (Some v))
      /\ (forall b', mr_body (ev_before e) = Some b' -> exists b, mr_body s = Some b /\ same_hash (sc_digest (ev_config e)) b b')
      /\ (In (CHeader $"digest") (vc_required vc) -> exists b', mr_body (ev_before e) = Some b').
Proof.
  intros K Hist Ev Ps Ck Vd Dd V.
  destruct (trusted mr_client mr_client_laws mr_method mr_url hp K) with (history := history) (s := s) (vc := vc) (venv := venv) (kid := kid) as [F|H]; try assumption.
  - intro r. destruct (mr_line r []) as (L1 & _ & _ & _ & L2 & _). split; [exact L1|]. split; [exact L2|]. apply mr_single_line.
  - intros e (S1 & S2 & _). destruct (mock_frame _ _ _ _ _ S1 S2) as (_ & F1 & F2 & _). now split.
  - now left.
  - right. destruct H as (e & He & H1 & H2 & H3 & H4 & H5 & H6 & H7). exists e. repeat (split; [assumption|]). split.
    + intros b' B. apply H6. cbn [cr_compute_digest mr_client mr_compute_digest snd]. unfold mr_compute_digest. cbn [snd]. now rewrite B.
    + intro Rq. specialize (H7 Rq). destruct (mr_body (ev_before e)) as [b'|] eqn:B; [now exists b'|]. exfalso. apply H7.
      destruct (Ev e He) as (_ & _ & D0). rewrite Forall_forall in Hist. destruct (Hist e He) as (S1 & S2 & _).
      pose proof (sign_digest mr_client mr_client_laws (ev_before e) (ev_after e) (ev_config e) (ev_env e) (Ok tt) S1 D0) as X.
      cbn [cr_compute_digest mr_client] in X. unfold mr_compute_digest in X. cbn [snd] in X. rewrite B in X. cbn [option_map] in X.
      assert (Y : rl_derive (cr_rl mr_client) (ev_after e) (CHeader $"digest") = Done (if sc_compute_digest (ev_config e) then None else None)) by (apply X; [discriminate|exact S2]).
      cbn [cr_rl mr_client] in Y |- *. rewrite Y. now destruct (sc_compute_digest _).
Qed.
Lemma rq_trusted (hp : host_parser) (cr : client_request_like rq) (history : list (signing_event rq)) (s : mock) (vc : verifying_config) (venv : verify_env) (kid : str) :
  cr = rq_async \/ cr = rq_blocking -> host_laws hp ->
  Forall (happened cr) history ->
  (forall e, In e history -> covers_message (ev_config e) /\ proper_line hp (rq_method (ev_before e)) (rq_url (ev_before e))
                             /\ rq_derive (ev_before e) (CHeader $"digest") = Done None) ->
  proper_line hp (mr_method s) (mr_url s) -> sys_clock_ok (ve_sys venv) ->
  vc_validate_digest vc = true -> vc_digests vc = default_digest_provider ->
  verify mr_server s vc venv = Done (Ok (tt, kid)) ->
  forged cr history mr_server s (vc_keys vc) kid
  \/ exists e, In e history /\ sc_key_id (ev_config e) = kid /\ valid_at e (ve_sys venv)
      /\ mr_method s = rq_method (ev_before e) /\ mr_url s = rq_url (ev_before e)
      /\ (forall h v, In (CHeader h) (sc_components (ev_config e)) -> h <> $"signature-input" -> h <> $"signature" ->
            rq_derive (ev_after e) (CHeader h) = Done (Some v) -> mr_derive s (CHeader h) = Done (Some v))
      /\ (forall b', read_body cr (ev_before e) b' -> exists b, mr_body s = Some b /\ same_hash (sc_digest (ev_config e)) b b')
      /\ (In (CHeader $"digest") (vc_required vc) -> exists b', read_body cr (ev_before e) b').
Proof.
  intros Hc K Hist Ev Ps Ck Vd Dd V. assert (L : client_laws cr) by (destruct Hc as [-> | ->]; [exact rq_async_laws|exact rq_blocking_laws]).
  assert (E : cr_rl cr = rq_rl) by (destruct Hc as [-> | ->]; reflexivity).
  assert (B : forall r d, (forall b, read_body cr r b -> snd (cr_compute_digest cr r d) = Some (dg_digest d b))
                          /\ ((exists b, read_body cr r b) \/ snd (cr_compute_digest cr r d) = None)).
  { assert (Ne : rq_async <> rq_blocking).
    { intro Y. apply (f_equal (fun c => snd (cr_compute_digest c (Rq [] (Url [] false [] None None None [] None None) [] (BStream (Some []))) sha256_digest))) in Y.
      discriminate Y. }
    intros r d. unfold read_body. destruct r as [m u h body]. cbn [rq_bod].
    destruct Hc as [-> | ->]; cbn [cr_compute_digest rq_async rq_blocking]; unfold rq_async_digest, rq_blocking_digest; cbn [rq_bod]; destruct body as [|x|[x|]]; cbn [snd];
      (split; [intros y [X|[Y X]]; try discriminate X; try contradiction; injection X as ->; reflexivity|]); eauto. }
  destruct (trusted cr L rq_method rq_url hp K) with (history := history) (s := s) (vc := vc) (venv := venv) (kid := kid) as [F|H]; try assumption.
  - intro r. rewrite E. destruct (rq_line r []) as (L1 & _ & _ & _ & L2 & _). split; [exact L1|]. split; [exact L2|]. apply rq_single_line.
  - intros e (S1 & S2 & _). destruct (rq_frame cr _ _ _ _ _ Hc S1 S2) as (F1 & F2 & _). now split.
  - rewrite E. exact Ev.
  - now left.
  - right. rewrite E in H. destruct H as (e & He & H1 & H2 & H3 & H4 & H5 & H6 & H7). exists e. repeat (split; [assumption|]). split.
    + intros b' X. apply H6. now apply B.
    + intro Rq. specialize (H7 Rq). destruct (B (ev_before e) (sc_digest (ev_config e))) as [_ [X|X]]; [exact X|]. exfalso. apply H7.
      destruct (Ev e He) as (_ & _ & D0). rewrite Forall_forall in Hist. destruct (Hist e He) as (S1 & S2 & _).
      change (rl_derive rq_rl (ev_before e) (CHeader $"digest") = Done None) in D0. rewrite <- E in D0 |- *.
      pose proof (sign_digest cr L (ev_before e) (ev_after e) (ev_config e) (ev_env e) (Ok tt) S1 D0) as Z. rewrite X in Z. cbn [option_map] in Z.
      rewrite Z; [now destruct (sc_compute_digest _)|discriminate|exact S2].
Qed.
