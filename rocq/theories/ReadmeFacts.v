(** Lemmas for C84: the README's example and its note on streamed bodies. *)
From Verif Require Import Samples SpecAuto StrFacts SignFacts SignMore RoundTrip AutoFacts GrowFacts AlgFacts ReqFacts.

(** What a configuration without components, times and nonce signs. *)
Definition bare_stamp (alg id : str) : list (str * bare) := [($"alg", BString alg); ($"keyid", BString id)].

Lemma bare_stamp_text (alg id sp : str) : inner_text [] (bare_stamp alg id) sp ->
  exists a q, string_text alg a /\ string_text id q /\ sp = $"();alg=" ++ a ++ $";keyid=" ++ q.
Proof.
  intros (its & pt & F & P & ->). inversion F; subst. unfold bare_stamp in P.
  inversion P as [| |k v p kt vt pt' _ K V P1]; subst. inversion P1 as [| |k v p kt2 vt2 pt2 _ K2 V2 P2]; subst. inversion P2; subst.
  destruct K as (_ & _ & ->), K2 as (_ & _ & ->). exists vt, vt2. split; [exact V|]. split; [exact V2|].
  cbn [spaced]. rewrite app_nil_r. reflexivity.
Qed.

Section Default.
  Context {R : Type} (cr : client_request_like R) (L : client_laws cr).
  Lemma readme_headers (r r' : R) (label id key : str) (env : sign_env) :
    sys_clock_ok (se_sys env) -> sign cr r (sc_new_default label id key) env = Done (r', Ok tt) ->
    exists q sig, string_text id q
      /\ rl_derive (cr_rl cr) r' (CHeader $"signature-input") = Done (Some (s2b "sig=();alg=""hmac-sha256"";keyid=" ++ q))
      /\ vf_verify (hmac_sha256_verifier key) (s2b """@signature-params"": ();alg=""hmac-sha256"";keyid=" ++ q) sig = true
      /\ (plain label -> rl_derive (cr_rl cr) r' (CHeader $"signature") = Done (Some (label ++ $"=:" ++ sig ++ $":"))).
  Proof.
    intros C S. set (c := sc_new_default label id key) in *.
    destruct (sign_ok_facts cr L r r' c env C S) as (cs & base & sp & Cov & _ & _ & B & I & D1 & _ & D2).
    assert (cs = []) by (cbv [covered] in Cov; cbn [sc_skip_missing c sc_new_default sc_new sc_components] in Cov; now inversion Cov). subst cs.
    change (stamp c (seconds (se_sys env))) with (bare_stamp $"hmac-sha256" id) in *. cbn [map] in I.
    destruct B as (ids & vals & sp' & F1 & F2 & I' & ->). inversion F1; subst. inversion F2; subst. cbn [map] in I'.
    pose proof (inner_text_fun _ _ _ _ I I'). subst sp'. destruct (bare_stamp_text _ _ _ I) as (a & q & A & Q & ->).
    assert (a = s2b """hmac-sha256""") by (destruct A as (_ & ->); reflexivity). subst a.
    set (base := lines _) in *. exists q, (sg_sign (hmac_sha256_signer key) (se_rnd env) base).
    assert (Eb : base = s2b """@signature-params"": ();alg=""hmac-sha256"";keyid=" ++ q) by reflexivity.
    split; [exact Q|]. split; [exact D1|]. split.
    - rewrite <- Eb. apply (proj2 (hmac256_iff key base _ (se_rnd env))). reflexivity.
    - intro Pl. apply D2. apply signature_text_plain; [exact Pl|]. apply (proj1 (crate_matching (se_rnd env))).
  Qed.
End Default.

Lemma string_text_one (s t t' : str) : string_text s t -> string_text s t' -> t = t'.
Proof. now intros (_ & ->) (_ & ->). Qed.

Lemma readme_same {R1 R2} (cr1 : client_request_like R1) (L1 : client_laws cr1) (cr2 : client_request_like R2) (L2 : client_laws cr2)
    (r1 r1' : R1) (r2 r2' : R2) (label id key : str) (env1 env2 : sign_env) :
  sys_clock_ok (se_sys env1) -> sys_clock_ok (se_sys env2) -> plain label ->
  sign cr1 r1 (sc_new_default label id key) env1 = Done (r1', Ok tt) ->
  sign cr2 r2 (sc_new_default label id key) env2 = Done (r2', Ok tt) ->
  forall h, In h [$"signature-input"; $"signature"] -> rl_derive (cr_rl cr1) r1' (CHeader h) = rl_derive (cr_rl cr2) r2' (CHeader h).
Proof.
  intros C1 C2 Pl S1 S2 h Hh.
  destruct (readme_headers cr1 L1 r1 r1' label id key env1 C1 S1) as (q1 & g1 & Q1 & I1 & V1 & D1).
  destruct (readme_headers cr2 L2 r2 r2' label id key env2 C2 S2) as (q2 & g2 & Q2 & I2 & V2 & D2).
  pose proof (string_text_one _ _ _ Q1 Q2). subst q2.
  apply (proj1 (hmac256_iff key _ _ 0%N)) in V1. apply (proj1 (hmac256_iff key _ _ 0%N)) in V2.
  destruct Hh as [<- | [<- | []]]; [congruence|]. rewrite (D1 Pl), (D2 Pl). congruence.
Qed.

(** Without components the signature fits every request. *)
Lemma fits_any {R} (cr : client_request_like R) (L : client_laws cr) (r r' : R) (c : signing_config) (env : sign_env)
    {S Rem} (sr : server_request_like S Rem) (SL : server_laws sr) (s : S) (vc : verifying_config) (venv : verify_env) (k : http_verifier) :
  sys_clock_ok (se_sys env) -> sign cr r c env = Done (r', Ok tt) ->
  sc_components c = [] -> sc_nonce c <> Some [] -> sc_label c = $"sig" ->
  matching (sc_signature c) (se_rnd env) k -> In k (vc_keys vc (sc_key_id c)) ->
  rl_derive (sr_rl sr) s (CHeader $"signature-input") = rl_derive (cr_rl cr) r' (CHeader $"signature-input") ->
  rl_derive (sr_rl sr) s (CHeader $"signature") = rl_derive (cr_rl cr) r' (CHeader $"signature") ->
  sys_clock_ok (ve_sys venv) -> vc_validate_date vc = false -> vc_required vc = [] -> digest_ok sr s vc ->
  (forall t, created_at c (seconds (se_sys env)) = Some t -> (t <= seconds (ve_sys venv))%Z) ->
  (forall t, expires_at c (seconds (se_sys env)) = Some t -> (seconds (ve_sys venv) <= t)%Z) ->
  exists rem, verify sr s vc venv = Done (Ok (rem, sc_key_id c)).
Proof.
  intros C Sg E N Lb M K D1 D2 C2 Vd Rq Dg T1 T2.
  assert (Rp : Forall component_rep (sc_components c)) by (rewrite E; constructor).
  apply (sign_verify cr L r r' c env C Sg Rp N sr SL s vc venv D1 D2) with (k := k); try assumption; rewrite ?E, ?Rq; intros ? [].
Qed.
Lemma readme_fits_any {R} (cr : client_request_like R) (L : client_laws cr) (r r' : R) (id key : str) (env : sign_env)
    (m : mock) (vc : verifying_config) (venv : verify_env) :
  sys_clock_ok (se_sys env) -> sign cr r (sc_new_default $"sig" id key) env = Done (r', Ok tt) ->
  In (hmac_sha256_verifier key) (vc_keys vc id) ->
  (forall h, In h [$"signature-input"; $"signature"] -> mr_derive m (CHeader h) = rl_derive (cr_rl cr) r' (CHeader h)) ->
  sys_clock_ok (ve_sys venv) -> vc_validate_date vc = false -> vc_required vc = [] ->
  mr_body m = None -> mr_derive m (CHeader $"digest") = Done None ->
  verify mr_server m vc venv = Done (Ok (tt, id)).
Proof.
  intros C Sg K D C2 Vd Rq Bd Dn.
  assert (Dg : digest_ok mr_server m vc).
  { right. split; [exact Dn|]. intros _. cbn [sr_complete_with_digest mr_server]. unfold mr_complete_with_digest. now rewrite Bd. }
  destruct (fits_any cr L r r' (sc_new_default $"sig" id key) env mr_server mr_server_laws m vc venv (hmac_sha256_verifier key) C Sg eq_refl
              ltac:(discriminate) eq_refl (proj1 (crate_matching (se_rnd env)) key) K (D _ (or_introl eq_refl)) (D _ (or_intror (or_introl eq_refl)))
              C2 Vd Rq Dg ltac:(discriminate) ltac:(discriminate)) as ([] & V).
  exact V.
Qed.

(** ** Streamed bodies *)
Lemma digest_coverage (cr : client_request_like rq) (r r' : rq) (c : signing_config) (env : sign_env) :
  cr = rq_async \/ cr = rq_blocking ->
  sys_clock_ok (se_sys env) -> sign cr r c env = Done (r', Ok tt) ->
  Forall component_rep (sc_components c) -> sc_nonce c <> Some [] ->
  In (CHeader $"digest") (sc_components c) ->
  exists input cc, rq_derive r' (CHeader $"signature-input") = Done (Some input) /\ input_reads input cc
    /\ (In (CHeader $"digest") (cc_components cc) <-> exists v, rq_derive r' (CHeader $"digest") = Done (Some v)).
Proof.
  intros Cr C S Rp N I. assert (L : client_laws cr) by (destruct Cr as [-> | ->]; [apply rq_async_laws|apply rq_blocking_laws]).
  assert (Rl : rl_derive (cr_rl cr) = rq_derive) by (destruct Cr as [-> | ->]; reflexivity).
  destruct (signed_facts cr L r r' c env C S Rp N) as (cs & base & sp & _ & _ & D & P & In' & _). rewrite Rl in D.
  exists ($"sig=" ++ sp), (CanonConfig (Some $"sig") (map canon_component cs) (stamp c (seconds (se_sys env)))).
  split; [exact D|]. split; [exact P|]. cbn [cc_components].
  assert (Hv : has_value (signed_view (cr_rl cr) r r') (CHeader $"digest") <-> exists v, rq_derive r' (CHeader $"digest") = Done (Some v)).
  { unfold has_value, signed_view. rewrite Rl. reflexivity. }
  rewrite in_map_iff, <- Hv. split.
  - intros (q & E & Hq). destruct q as [d|h]; [discriminate|]. cbn [canon_component] in E. rewrite E in Hq. now apply In'.
  - intro V. exists (CHeader $"digest"). split; [reflexivity|]. now apply In'.
Qed.
Lemma rq_frame (cr : client_request_like rq) (r r' : rq) (c : signing_config) (env : sign_env) (res : result unit error) (v : str) :
  cr = rq_async \/ cr = rq_blocking -> auto_safe cr r c env -> sign cr r c env = Done (r', res) ->
  rq_derive r (CHeader $"digest") = Done (Some v) -> rq_derive r' (CHeader $"digest") = Done (Some v).
Proof.
  intros Cr S H E. assert (L : client_laws cr) by (destruct Cr as [-> | ->]; [apply rq_async_laws|apply rq_blocking_laws]).
  assert (Rl : rl_derive (cr_rl cr) = rq_derive) by (destruct Cr as [-> | ->]; reflexivity).
  pose proof (sign_fmt cr L r r' c env res (CHeader $"digest") S H ltac:(intros [X|X]; discriminate)) as V.
  rewrite Rl in V. rewrite V. unfold completed. now rewrite Rl, E.
Qed.

Lemma streamed_async (r r' : rq) (c : signing_config) (env : sign_env) (o : option str) :
  rq_bod r = BStream o -> sc_digest c = sha256_digest \/ sc_digest c = sha512_digest ->
  sys_clock_ok (se_sys env) -> (sc_add_date c = true -> utc_clock_ok (se_utc env)) -> (forall h, u_host (rq_url r) = Some h -> plain h) ->
  sign rq_async r c env = Done (r', Ok tt) ->
  Forall component_rep (sc_components c) -> sc_nonce c <> Some [] -> In (CHeader $"digest") (sc_components c) ->
  exists input cc, rq_derive r' (CHeader $"signature-input") = Done (Some input) /\ input_reads input cc
    /\ (In (CHeader $"digest") (cc_components cc) <-> exists v, rq_derive r (CHeader $"digest") = Done (Some v)).
Proof.
  intros B Dg C U Hp S Rp N I.
  destruct (digest_coverage rq_async r r' c env (or_introl eq_refl) C S Rp N I) as (input & cc & D & P & X).
  exists input, cc. split; [exact D|]. split; [exact P|]. rewrite X. split; intros (v & V).
  - destruct (rq_derive r (CHeader $"digest")) as [[w|]|] eqn:E; [now exists w| |].
    + rewrite (rq_not_added rq_async r r' c env (Ok tt)) in V; [discriminate| | | | | | |]; try assumption. left. split; [reflexivity|]. rewrite B. discriminate.
    + destruct (cl_total _ rq_async_laws r) as [T _]. destruct (T $"digest") as (x & Ex). cbn in Ex. cbn in E. congruence.
  - exists v. eapply rq_frame; try eassumption; [now left|]. apply rq_safe; try assumption. now left.
Qed.
Lemma streamed_strict (r r' : rq) (c : signing_config) (env : sign_env) (o : option str) :
  rq_bod r = BStream o -> sc_digest c = sha256_digest \/ sc_digest c = sha512_digest ->
  sys_clock_ok (se_sys env) -> (sc_add_date c = true -> utc_clock_ok (se_utc env)) -> (forall h, u_host (rq_url r) = Some h -> plain h) ->
  In (CHeader $"digest") (sc_components c) -> sc_skip_missing c = false -> rq_derive r (CHeader $"digest") = Done None ->
  sign rq_async r c env <> Done (r', Ok tt).
Proof.
  intros B Dg C U Hp I Sk E S.
  destruct (sign_ok_facts rq_async rq_async_laws r r' c env C S) as (cs & base & sp & Cov & _ & _ & Bs & _).
  unfold covered in Cov. rewrite Sk in Cov. subst cs. destruct Bs as (ids & vals & sp' & _ & V & _).
  assert (X : exists v, rq_derive r' (CHeader $"digest") = Done (Some v)).
  { clear - I V. induction V as [|x v l vs Hx _ IH]; [destruct I|]. destruct I as [->|I]; [exists v; exact Hx|now apply IH]. }
  destruct X as (v & X). rewrite (rq_not_added rq_async r r' c env (Ok tt)) in X; [discriminate| | | | | | |]; try assumption.
  left. split; [reflexivity|]. rewrite B. discriminate.
Qed.
Lemma streamed_blocking (r r' : rq) (c : signing_config) (env : sign_env) (b t : str) :
  rq_bod r = BStream (Some b) -> standard_digest (sc_digest c) b t -> sc_compute_digest c = true -> hm_get (rq_headers r) $"digest" = None ->
  sys_clock_ok (se_sys env) -> (sc_add_date c = true -> utc_clock_ok (se_utc env)) -> (forall h, u_host (rq_url r) = Some h -> plain h) ->
  sign rq_blocking r c env = Done (r', Ok tt) ->
  Forall component_rep (sc_components c) -> sc_nonce c <> Some [] -> In (CHeader $"digest") (sc_components c) ->
  exists input cc, rq_derive r' (CHeader $"signature-input") = Done (Some input) /\ input_reads input cc
    /\ In (CHeader $"digest") (cc_components cc) /\ rq_derive r' (CHeader $"digest") = Done (Some t).
Proof.
  intros B T Cd Hn C U Hp S Rp N I. destruct (standard_is _ _ _ T) as [Et Dg].
  destruct (digest_coverage rq_blocking r r' c env (or_intror eq_refl) C S Rp N I) as (input & cc & D & P & X).
  assert (E : rq_derive r' (CHeader $"digest") = Done (Some t)).
  { destruct (rq_blocking_values r r' c env (Ok tt) Dg C U Hp S) as [_ V]. pose proof (V b t Cd Hn (or_intror B) T) as G.
    cbn [rq_derive]. rewrite G. cbn [opt_bind]. rewrite Et. now rewrite (proj2 (LineFacts.to_str_plain _ _) (conj eq_refl (digest_plain _ b Dg))). }
  exists input, cc. split; [exact D|]. split; [exact P|]. split; [|exact E]. apply X. now exists t.
Qed.
