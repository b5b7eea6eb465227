(** Properties of signing followed by verification: C09, C10, C16, C19. *)
From Verif Require Import RoundTrip ShaFacts Samples WitnessSign WitnessRound.

(** C09: what was signed is accepted.  The receiving request [s] shows the same values
    of the configured components and of the two signature headers as the signed one. *)
Theorem C09_sign_then_verify :
  forall R (cr : client_request_like R), client_laws cr ->
  forall (r r' : R) (c : signing_config) (env : sign_env),
  sys_clock_ok (se_sys env) -> sign cr r c env = Done (r', Ok tt) ->
  Forall component_rep (sc_components c) -> sc_nonce c <> Some [] ->
  forall S Rem (sr : server_request_like S Rem), server_laws sr ->
  forall (s : S) (vc : verifying_config) (venv : verify_env),
  rl_derive (sr_rl sr) s (CHeader $"signature-input") = rl_derive (cr_rl cr) r' (CHeader $"signature-input") ->
  rl_derive (sr_rl sr) s (CHeader $"signature") = rl_derive (cr_rl cr) r' (CHeader $"signature") ->
  (forall q, In q (sc_components c) -> has_value (rl_derive (cr_rl cr) r') q ->
     rl_derive (sr_rl sr) s q = rl_derive (cr_rl cr) r' q) ->
  (forall q, In q (sc_components c) -> ~ signature_header q) ->
  forall k : http_verifier,
  sc_label c = $"sig" -> matching (sc_signature c) (se_rnd env) k -> In k (vc_keys vc (sc_key_id c)) ->
  sys_clock_ok (ve_sys venv) -> vc_validate_date vc = false ->
  (forall t, created_at c (seconds (se_sys env)) = Some t -> (t <= seconds (ve_sys venv))%Z) ->
  (forall t, expires_at c (seconds (se_sys env)) = Some t -> (seconds (ve_sys venv) <= t)%Z) ->
  (forall q, In q (vc_required vc) ->
     (exists h, q = CHeader h) /\ In q (sc_components c) /\ has_value (rl_derive (cr_rl cr) r') q) ->
  digest_ok sr s vc ->
  exists rem, verify sr s vc venv = Done (Ok (rem, sc_key_id c)).
Proof. exact @sign_verify. Qed.
Print Assumptions C09_sign_then_verify.
(** MockRequest, with the Digest header that [sign] adds. *)
Theorem C09_mock_sign_then_verify :
  forall (r r' : mock) (c : signing_config) (env : sign_env) (vc : verifying_config) (venv : verify_env) (k : http_verifier),
  sys_clock_ok (se_sys env) -> sign mr_client r c env = Done (r', Ok tt) ->
  sc_label c = $"sig" -> sc_nonce c <> Some [] ->
  Forall component_rep (sc_components c) -> (forall q, In q (sc_components c) -> ~ signature_header q) ->
  mr_derive r (CHeader $"digest") = Done None -> sc_compute_digest c = true ->
  sc_digest c = sha256_digest \/ sc_digest c = sha512_digest -> vc_digests vc = default_digest_provider ->
  matching (sc_signature c) (se_rnd env) k -> In k (vc_keys vc (sc_key_id c)) ->
  sys_clock_ok (ve_sys venv) -> vc_validate_date vc = false ->
  (forall t, created_at c (seconds (se_sys env)) = Some t -> (t <= seconds (ve_sys venv))%Z) ->
  (forall t, expires_at c (seconds (se_sys env)) = Some t -> (seconds (ve_sys venv) <= t)%Z) ->
  (forall q, In q (vc_required vc) -> (exists h, q = CHeader h) /\ In q (sc_components c) /\ has_value (mr_derive r') q) ->
  verify mr_server r' vc venv = Done (Ok (tt, sc_key_id c)).
Proof. exact mock_round. Qed.
Print Assumptions C09_mock_sign_then_verify.
(** The algorithms of the crate match; the asymmetric ones if the primitive verifies its own tags. *)
Theorem C09_crate_algorithms_match : forall rnd : N,
  (forall key, matching (hmac_sha256_signer key) rnd (hmac_sha256_verifier key))
  /\ (forall key, matching (hmac_sha512_signer key) rnd (hmac_sha512_verifier key))
  /\ (forall cy t sk pk, (forall m, cy_verify cy (ring_sign_scheme t) pk m (cy_sign cy (ring_sign_scheme t) sk rnd m) = true) ->
        matching (ring_signer cy t sk) rnd (ring_verifier cy t pk))
  /\ (forall cy t sk pk s sg vf, openssl_scheme t = Some s ->
        (forall m, cy_verify cy s pk m (cy_sign cy s sk rnd m) = true) ->
        openssl_signer cy t sk = Some sg -> openssl_verifier cy t pk = Some vf -> matching sg rnd vf).
Proof. exact crate_matching. Qed.
Print Assumptions C09_crate_algorithms_match.
Example C09_case : sign mr_client m_req m_sconf m_senv = Done (m_signed, Ok tt)
  /\ Forall component_rep (sc_components m_sconf) /\ matching (sc_signature m_sconf) (se_rnd m_senv) (toy_verifier $"secret")
  /\ In (toy_verifier $"secret") (vc_keys m_vconf (sc_key_id m_sconf))
  /\ verify mr_server m_signed m_vconf m_venv = Done (Ok (tt, $"k1")).
Proof. exact trip_case. Qed.

(** C10: acceptance of the same header pair means equal values of everything covered,
    or a forgery: a key of the key id accepts the signature of one base for another. *)
Theorem C10_tampering_is_detected :
  forall R (cr : client_request_like R), client_laws cr ->
  forall (r r' : R) (c : signing_config) (env : sign_env),
  sys_clock_ok (se_sys env) -> sign cr r c env = Done (r', Ok tt) ->
  Forall component_rep (sc_components c) -> sc_nonce c <> Some [] ->
  forall S Rem (sr : server_request_like S Rem), server_laws sr ->
  forall (s : S) (vc : verifying_config) (venv : verify_env),
  rl_derive (sr_rl sr) s (CHeader $"signature-input") = rl_derive (cr_rl cr) r' (CHeader $"signature-input") ->
  rl_derive (sr_rl sr) s (CHeader $"signature") = rl_derive (cr_rl cr) r' (CHeader $"signature") ->
  forall (rem : Rem) (kid : str),
  ~ In "="%char (sc_label c) -> plain (sc_label c) ->
  (forall m, let sig := sg_sign (sc_signature c) (se_rnd env) m in plain sig /\ clean_signature sig) ->
  same_line_feeds (signed_view (cr_rl cr) r r') (rl_derive (sr_rl sr) s) (sc_components c) ->
  verify sr s vc venv = Done (Ok (rem, kid)) ->
  (forall q v, In q (sc_components c) -> signed_view (cr_rl cr) r r' q = Done (Some v) -> rl_derive (sr_rl sr) s q = Done (Some v))
  \/ exists m1 m2 k, two_bases (signed_view (cr_rl cr) r r') (rl_derive (sr_rl sr) s) c (seconds (se_sys env)) m1 m2
      /\ In k (vc_keys vc (sc_key_id c)) /\ vf_verify k m2 (sg_sign (sc_signature c) (se_rnd env) m1) = true.
Proof. exact @tamper_values. Qed.
Print Assumptions C10_tampering_is_detected.
(** With an HMAC key the forgery is a collision of the MAC. *)
Theorem C10_hmac_sha256 :
  forall R (cr : client_request_like R), client_laws cr ->
  forall S Rem (sr : server_request_like S Rem), server_laws sr ->
  forall (r r' : R) (c : signing_config) (env : sign_env) (s : S) (vc : verifying_config) (venv : verify_env) (rem : Rem) (kid key : str),
  sys_clock_ok (se_sys env) -> sign cr r c env = Done (r', Ok tt) ->
  Forall component_rep (sc_components c) -> sc_nonce c <> Some [] -> ~ In "="%char (sc_label c) -> plain (sc_label c) ->
  sc_signature c = hmac_sha256_signer key ->
  (forall k, In k (vc_keys vc (sc_key_id c)) -> k = hmac_sha256_verifier key) ->
  rl_derive (sr_rl sr) s (CHeader $"signature-input") = rl_derive (cr_rl cr) r' (CHeader $"signature-input") ->
  rl_derive (sr_rl sr) s (CHeader $"signature") = rl_derive (cr_rl cr) r' (CHeader $"signature") ->
  same_line_feeds (signed_view (cr_rl cr) r r') (rl_derive (sr_rl sr) s) (sc_components c) ->
  verify sr s vc venv = Done (Ok (rem, kid)) ->
  (forall q v, In q (sc_components c) -> signed_view (cr_rl cr) r r' q = Done (Some v) -> rl_derive (sr_rl sr) s q = Done (Some v))
  \/ exists m1 m2, two_bases (signed_view (cr_rl cr) r r') (rl_derive (sr_rl sr) s) c (seconds (se_sys env)) m1 m2 /\ hmac sha256 64 key m1 = hmac sha256 64 key m2.
Proof. exact @tamper_hmac256. Qed.
Print Assumptions C10_hmac_sha256.
Theorem C10_hmac_sha512 :
  forall R (cr : client_request_like R), client_laws cr ->
  forall S Rem (sr : server_request_like S Rem), server_laws sr ->
  forall (r r' : R) (c : signing_config) (env : sign_env) (s : S) (vc : verifying_config) (venv : verify_env) (rem : Rem) (kid key : str),
  sys_clock_ok (se_sys env) -> sign cr r c env = Done (r', Ok tt) ->
  Forall component_rep (sc_components c) -> sc_nonce c <> Some [] -> ~ In "="%char (sc_label c) -> plain (sc_label c) ->
  sc_signature c = hmac_sha512_signer key ->
  (forall k, In k (vc_keys vc (sc_key_id c)) -> k = hmac_sha512_verifier key) ->
  rl_derive (sr_rl sr) s (CHeader $"signature-input") = rl_derive (cr_rl cr) r' (CHeader $"signature-input") ->
  rl_derive (sr_rl sr) s (CHeader $"signature") = rl_derive (cr_rl cr) r' (CHeader $"signature") ->
  same_line_feeds (signed_view (cr_rl cr) r r') (rl_derive (sr_rl sr) s) (sc_components c) ->
  verify sr s vc venv = Done (Ok (rem, kid)) ->
  (forall q v, In q (sc_components c) -> signed_view (cr_rl cr) r r' q = Done (Some v) -> rl_derive (sr_rl sr) s q = Done (Some v))
  \/ exists m1 m2, two_bases (signed_view (cr_rl cr) r r') (rl_derive (sr_rl sr) s) c (seconds (se_sys env)) m1 m2 /\ hmac sha512 128 key m1 = hmac sha512 128 key m2.
Proof. exact @tamper_hmac512. Qed.
Print Assumptions C10_hmac_sha512.
(** A changed request (method GET instead of POST) with the same headers is rejected;
    one with another uncovered header is accepted. *)
Example C10_case : sign mr_client m_req m_sconf m_senv = Done (m_signed, Ok tt)
  /\ verify mr_server (MockReq HTTP_11 $"GET" s_url (mr_path m_signed) (mr_headers m_signed) (mr_body m_signed)) m_vconf m_venv = Done (Err tt)
  /\ verify mr_server (mr_set_header m_signed $"content-type" $"text/html") m_vconf m_venv = Done (Ok (tt, $"k1"))
  /\ same_line_feeds (signed_view mr_rl m_req m_signed) (mr_derive m_signed) (sc_components m_sconf).
Proof. exact tamper_case. Qed.

(** C16 is false: nothing [sign] produces passes the date check, which is on by default. *)
Theorem C16_date_check_rejects_every_signed_request :
  forall R (cr : client_request_like R), client_laws cr ->
  forall (r r' : R) (c : signing_config) (env : sign_env),
  sys_clock_ok (se_sys env) -> sign cr r c env = Done (r', Ok tt) ->
  Forall component_rep (sc_components c) -> sc_nonce c <> Some [] ->
  forall S Rem (sr : server_request_like S Rem) (s : S) (vc : verifying_config) (venv : verify_env),
  rl_derive (sr_rl sr) s (CHeader $"signature-input") = rl_derive (cr_rl cr) r' (CHeader $"signature-input") ->
  vc_validate_date vc = true -> utc_clock_ok (ve_utc venv) ->
  forall rem kid, verify sr s vc venv <> Done (Ok (rem, kid)).
Proof. exact @date_validation_rejects. Qed.
Print Assumptions C16_date_check_rejects_every_signed_request.
Theorem C16_default_configuration_refuted :
  exists (r r' : mock) (c : signing_config) (kp : key_provider) (t : Z),
  sign mr_client r c (SignEnv t t 0) = Done (r', Ok tt)
  /\ verify mr_server r' (vc_set_validate_date (vc_new kp) false) (VerifyEnv t t) = Done (Ok (tt, sc_key_id c))
  /\ verify mr_server r' (vc_new kp) (VerifyEnv t t) = Done (Err tt).
Proof. exact default_rejects. Qed.
Print Assumptions C16_default_configuration_refuted.
Example C16_case : sign mr_client m_req m_sconf m_senv = Done (m_signed, Ok tt) /\ vc_validate_date (vc_new m_keys) = true
  /\ utc_clock_ok (ve_utc m_venv).
Proof. split; [exact (proj1 trip_case)|]. split; [reflexivity|vm_compute; intuition discriminate]. Qed.

(** C19 is false: the label is used in Signature, "sig" in Signature-Input; with any other
    label nothing is accepted. *)
Theorem C19_other_labels_rejected :
  forall R (cr : client_request_like R), client_laws cr ->
  forall (r r' : R) (c : signing_config) (env : sign_env),
  sys_clock_ok (se_sys env) -> sign cr r c env = Done (r', Ok tt) ->
  Forall component_rep (sc_components c) -> sc_nonce c <> Some [] ->
  forall S Rem (sr : server_request_like S Rem) (s : S) (vc : verifying_config) (venv : verify_env),
  rl_derive (sr_rl sr) s (CHeader $"signature-input") = rl_derive (cr_rl cr) r' (CHeader $"signature-input") ->
  rl_derive (sr_rl sr) s (CHeader $"signature") = rl_derive (cr_rl cr) r' (CHeader $"signature") ->
  sc_label c <> $"sig" -> plain (sc_label c) ->
  (forall m, let sig := sg_sign (sc_signature c) (se_rnd env) m in plain sig /\ clean_signature sig /\ sig <> []) ->
  (forall k, In k (vc_keys vc (sc_key_id c)) -> rejects_colons k) ->
  forall rem kid, verify sr s vc venv <> Done (Ok (rem, kid)).
Proof. exact @other_label_rejected. Qed.
Print Assumptions C19_other_labels_rejected.
(** The crate's algorithms are as the theorem asks. *)
Theorem C19_crate_algorithms_apply :
  (forall key m rnd, let sig := sg_sign (hmac_sha256_signer key) rnd m in plain sig /\ clean_signature sig /\ sig <> [])
  /\ (forall key m rnd, let sig := sg_sign (hmac_sha512_signer key) rnd m in plain sig /\ clean_signature sig /\ sig <> [])
  /\ (forall n mac, rejects_colons (HttpVerifier n (hmac_http_verify mac)))
  /\ (forall n v, rejects_colons (HttpVerifier n (raw_http_verify v))).
Proof. exact crate_texts. Qed.
Print Assumptions C19_crate_algorithms_apply.
Theorem C19_label_refuted :
  exists (r r' : mock) (c : signing_config) (kp : key_provider) (env : sign_env) (venv : verify_env),
  sign mr_client r c env = Done (r', Ok tt) /\ sc_label c = $"mine"
  /\ header_value mr_server r' $"signature" $"mine=:Rvnb:" /\ header_value mr_server r' $"signature-input" m_input
  /\ verify mr_server r' (vc_set_validate_date (vc_new kp) false) venv = Done (Err tt).
Proof. exact label_rejected. Qed.
Print Assumptions C19_label_refuted.
(** The label "sig" works: C09 (a partial positive result). *)
Theorem C19_label_sig_partial :
  forall (r r' : mock) (c : signing_config) (env : sign_env) (vc : verifying_config) (venv : verify_env) (k : http_verifier),
  sys_clock_ok (se_sys env) -> sign mr_client r c env = Done (r', Ok tt) ->
  sc_label c = $"sig" -> sc_nonce c <> Some [] ->
  Forall component_rep (sc_components c) -> (forall q, In q (sc_components c) -> ~ signature_header q) ->
  mr_derive r (CHeader $"digest") = Done None -> sc_compute_digest c = true ->
  sc_digest c = sha256_digest \/ sc_digest c = sha512_digest -> vc_digests vc = default_digest_provider ->
  matching (sc_signature c) (se_rnd env) k -> In k (vc_keys vc (sc_key_id c)) ->
  sys_clock_ok (ve_sys venv) -> vc_validate_date vc = false ->
  (forall t, created_at c (seconds (se_sys env)) = Some t -> (t <= seconds (ve_sys venv))%Z) ->
  (forall t, expires_at c (seconds (se_sys env)) = Some t -> (seconds (ve_sys venv) <= t)%Z) ->
  vc_required vc = [] ->
  verify mr_server r' vc venv = Done (Ok (tt, sc_key_id c)).
Proof. exact label_sig. Qed.
Print Assumptions C19_label_sig_partial.
Example C19_case : sc_label m_mine <> $"sig" /\ plain $"mine"
  /\ rejects_colons (toy_verifier $"secret").
Proof. split; [vm_compute; discriminate|]. split; [now apply plain_iff|]. apply crate_texts. Qed.
