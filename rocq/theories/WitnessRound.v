(** Witnesses and small corollaries for signing followed by verification. *)
From Verif Require Export RoundTrip ShaFacts Samples WitnessSign.

Lemma tamper_hmac256 {R} (cr : client_request_like R) (L : client_laws cr) {S Rem} (sr : server_request_like S Rem) (SL : server_laws sr)
    (r r' : R) (c : signing_config) (env : sign_env) (s : S) (vc : verifying_config) (venv : verify_env) (rem : Rem) (kid key : str) :
  sys_clock_ok (se_sys env) -> sign cr r c env = Done (r', Ok tt) ->
  Forall component_rep (sc_components c) -> sc_nonce c <> Some [] -> ~ In "="%char (sc_label c) -> plain (sc_label c) ->
  sc_signature c = hmac_sha256_signer key ->
  (forall k, In k (vc_keys vc (sc_key_id c)) -> k = hmac_sha256_verifier key) ->
  rl_derive (sr_rl sr) s (CHeader $"signature-input") = rl_derive (cr_rl cr) r' (CHeader $"signature-input") ->
  rl_derive (sr_rl sr) s (CHeader $"signature") = rl_derive (cr_rl cr) r' (CHeader $"signature") ->
  same_line_feeds (signed_view (cr_rl cr) r r') (rl_derive (sr_rl sr) s) (sc_components c) ->
  verify sr s vc venv = Done (Ok (rem, kid)) ->
  (forall q v, In q (sc_components c) -> signed_view (cr_rl cr) r r' q = Done (Some v) -> rl_derive (sr_rl sr) s q = Done (Some v))
  \/ exists m1 m2, two_bases (signed_view (cr_rl cr) r r') (rl_derive (sr_rl sr) s) c (seconds (se_sys env)) m1 m2 /\ hmac sha256 64 key m1 = hmac sha256 64 key m2.
Proof.
  intros Ck H Rp Nn Ne Pl Sg Ks I1 I2 Lf V.
  exact (tamper_hmac cr L sr SL r r' c env s vc venv rem kid _ _ _ Ck H Rp Nn Ne Pl Sg Ks I1 I2 Lf V).
Qed.
Lemma tamper_hmac512 {R} (cr : client_request_like R) (L : client_laws cr) {S Rem} (sr : server_request_like S Rem) (SL : server_laws sr)
    (r r' : R) (c : signing_config) (env : sign_env) (s : S) (vc : verifying_config) (venv : verify_env) (rem : Rem) (kid key : str) :
  sys_clock_ok (se_sys env) -> sign cr r c env = Done (r', Ok tt) ->
  Forall component_rep (sc_components c) -> sc_nonce c <> Some [] -> ~ In "="%char (sc_label c) -> plain (sc_label c) ->
  sc_signature c = hmac_sha512_signer key ->
  (forall k, In k (vc_keys vc (sc_key_id c)) -> k = hmac_sha512_verifier key) ->
  rl_derive (sr_rl sr) s (CHeader $"signature-input") = rl_derive (cr_rl cr) r' (CHeader $"signature-input") ->
  rl_derive (sr_rl sr) s (CHeader $"signature") = rl_derive (cr_rl cr) r' (CHeader $"signature") ->
  same_line_feeds (signed_view (cr_rl cr) r r') (rl_derive (sr_rl sr) s) (sc_components c) ->
  verify sr s vc venv = Done (Ok (rem, kid)) ->
  (forall q v, In q (sc_components c) -> signed_view (cr_rl cr) r r' q = Done (Some v) -> rl_derive (sr_rl sr) s q = Done (Some v))
  \/ exists m1 m2, two_bases (signed_view (cr_rl cr) r r') (rl_derive (sr_rl sr) s) c (seconds (se_sys env)) m1 m2 /\ hmac sha512 128 key m1 = hmac sha512 128 key m2.
Proof.
  intros Ck H Rp Nn Ne Pl Sg Ks I1 I2 Lf V.
  exact (tamper_hmac cr L sr SL r r' c env s vc venv rem kid _ _ _ Ck H Rp Nn Ne Pl Sg Ks I1 I2 Lf V).
Qed.
Lemma label_sig (r r' : mock) (c : signing_config) (env : sign_env) (vc : verifying_config) (venv : verify_env) (k : http_verifier) :
  sys_clock_ok (se_sys env) -> sign mr_client r c env = Done (r', Ok tt) ->
  sc_label c = $"sig" -> sc_nonce c <> Some [] ->
  Forall component_rep (sc_components c) -> (forall q, In q (sc_components c) -> ~ signature_header q) ->
  mr_derive r (CHeader $"digest") = Done None -> sc_compute_digest c = true ->
  sc_digest c = sha256_digest \/ sc_digest c = sha512_digest -> vc_digests vc = default_digest_provider ->
  matching (sc_signature c) (se_rnd env) k -> In k (vc_keys vc (sc_key_id c)) ->
  sys_clock_ok (ve_sys venv) -> vc_validate_date vc = false ->
  (forall t, created_at c (seconds (se_sys env)) = Some t -> (t <= seconds (ve_sys venv))%Z) ->
  (forall t, expires_at c (seconds (se_sys env)) = Some t -> (seconds (ve_sys venv) <= t)%Z) ->
  vc_required vc = [] ->
  verify mr_server r' vc venv = Done (Ok (tt, sc_key_id c)).
Proof. intros. eapply mock_round; try eassumption. intros q Hq. rewrite H15 in Hq. destruct Hq. Qed.
Lemma crate_texts :
  (forall key m rnd, let sig := sg_sign (hmac_sha256_signer key) rnd m in plain sig /\ clean_signature sig /\ sig <> [])
  /\ (forall key m rnd, let sig := sg_sign (hmac_sha512_signer key) rnd m in plain sig /\ clean_signature sig /\ sig <> [])
  /\ (forall n mac, rejects_colons (HttpVerifier n (hmac_http_verify mac)))
  /\ (forall n v, rejects_colons (HttpVerifier n (raw_http_verify v))).
Proof.
  split; [|split; [|exact crate_rejects_colons]].
  - intros key m rnd. cbv zeta. destruct (hmac_outputs (mac_sha256 key) m) as [A B]. split; [exact A|]. split; [exact B|].
    intro E. pose proof (hmac_text_lengths key m rnd) as (X & _). rewrite E in X. discriminate.
  - intros key m rnd. cbv zeta. destruct (hmac_outputs (mac_sha512 key) m) as [A B]. split; [exact A|]. split; [exact B|].
    intro E. pose proof (hmac_text_lengths key m rnd) as (_ & X & _). rewrite E in X. discriminate.
Qed.

Lemma m_sign : sign mr_client m_req m_sconf m_senv = Done (m_signed, Ok tt).
Proof. vm_compute. reflexivity. Qed.
Lemma trip_case : sign mr_client m_req m_sconf m_senv = Done (m_signed, Ok tt)
  /\ Forall component_rep (sc_components m_sconf) /\ matching (sc_signature m_sconf) (se_rnd m_senv) (toy_verifier $"secret")
  /\ In (toy_verifier $"secret") (vc_keys m_vconf (sc_key_id m_sconf))
  /\ verify mr_server m_signed m_vconf m_venv = Done (Ok (tt, $"k1")).
Proof.
  split; [exact m_sign|]. split; [|split; [|split]].
  - do 5 (constructor; [apply component_repb_rep; vm_compute; reflexivity|]). constructor.
  - apply hmac_matching.
  - now left.
  - vm_compute. reflexivity.
Qed.
Lemma tamper_case : sign mr_client m_req m_sconf m_senv = Done (m_signed, Ok tt)
  /\ verify mr_server (MockReq HTTP_11 $"GET" s_url (mr_path m_signed) (mr_headers m_signed) (mr_body m_signed)) m_vconf m_venv = Done (Err tt)
  /\ verify mr_server (mr_set_header m_signed $"content-type" $"text/html") m_vconf m_venv = Done (Ok (tt, $"k1"))
  /\ same_line_feeds (signed_view mr_rl m_req m_signed) (mr_derive m_signed) (sc_components m_sconf).
Proof.
  split; [exact m_sign|]. split; [vm_compute; reflexivity|]. split; [vm_compute; reflexivity|].
  intros q v w Hq Dv Dw. repeat (destruct Hq as [<-|Hq]; [cbn [signed_view] in Dv; revert Dv Dw; vm_compute; congruence|]). destruct Hq.
Qed.
Lemma default_rejects :
  exists (r r' : mock) (c : signing_config) (kp : key_provider) (t : Z),
  sign mr_client r c (SignEnv t t 0) = Done (r', Ok tt)
  /\ verify mr_server r' (vc_set_validate_date (vc_new kp) false) (VerifyEnv t t) = Done (Ok (tt, sc_key_id c))
  /\ verify mr_server r' (vc_new kp) (VerifyEnv t t) = Done (Err tt).
Proof.
  exists m_req, m_signed, m_sconf, m_keys, 1618884475123456789%Z. split; [exact m_sign|]. split; vm_compute; reflexivity.
Qed.
(** [m_sconf] with another label. *)
Definition m_mine : signing_config :=
  sc_set_expires_relative (sc_set_created_auto (sc_set_components (sc_new $"mine" $"k1" (toy_signer $"secret")) (sc_components m_sconf))) 60.
Lemma label_rejected :
  exists (r r' : mock) (c : signing_config) (kp : key_provider) (env : sign_env) (venv : verify_env),
  sign mr_client r c env = Done (r', Ok tt) /\ sc_label c = $"mine"
  /\ header_value mr_server r' $"signature" $"mine=:Rvnb:" /\ header_value mr_server r' $"signature-input" m_input
  /\ verify mr_server r' (vc_set_validate_date (vc_new kp) false) venv = Done (Err tt).
Proof.
  exists m_req, (mr_set_header m_signed $"signature" $"mine=:Rvnb:"), m_mine, m_keys, m_senv, m_venv.
  split; [vm_compute; reflexivity|]. split; [reflexivity|]. split; [vm_compute; reflexivity|]. split; vm_compute; reflexivity.
Qed.
