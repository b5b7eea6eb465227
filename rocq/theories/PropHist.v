(** Properties of histories of calls: C23, C41, C42. *)
From Verif Require Import SpecHist HistFacts CompFacts Samples.

(** C23: the keys provided are those added since the last [remove_all] of the id or
    [clear], in order of addition (the constructor adds its keys in order). *)
Theorem C23_keys_since_forgotten :
  forall (init : list (str * http_verifier)) (calls : list key_call) (id : str) (ks : list http_verifier),
  skp_provide (fold_left key_do calls (skp_new init)) id = ks
  <-> keys_since id (map (fun kv => AddKey (fst kv) (snd kv)) init ++ calls) ks.
Proof. exact key_history. Qed.
Print Assumptions C23_keys_since_forgotten.
Example C23_case : let a := toy_verifier $"a" in let b := toy_verifier $"b" in let c := toy_verifier $"c" in
  let m := fold_left key_do [RemoveKeys $"x"; AddKey $"x" b; AddKey $"y" a; RemoveKeys $"z"; AddKey $"x" c] (skp_new [($"x", a); ($"y", b)]) in
  skp_provide m $"x" = [b; c] /\ skp_provide m $"y" = [b; a] /\ skp_provide m $"z" = []
  /\ skp_provide (key_do m ClearKeys) $"x" = [].
Proof. repeat split; reflexivity. Qed.

(** C41: getters return the last value set, the parameters are kept in order of first
    setting. *)
Theorem C41_parameters_are_an_ordered_map : forall calls : list param_call,
  let p := fold_left param_do calls [] in
  sp_get_created p = last_some p_created calls /\ sp_get_expires p = last_some p_expires calls
  /\ sp_get_nonce p = last_some p_nonce calls /\ sp_get_alg p = last_some p_alg calls
  /\ sp_get_keyid p = last_some p_keyid calls /\ params_set calls p.
Proof. exact param_history. Qed.
Print Assumptions C41_parameters_are_an_ordered_map.
(** Of parameters that were received they return the value, if it is of the kind that they set. *)
Theorem C41_getters : forall p : list (str * bare),
  (forall z, sp_get_created p = Some z <-> value_of $"created" p = Some (BInteger z))
  /\ (forall z, sp_get_expires p = Some z <-> value_of $"expires" p = Some (BInteger z))
  /\ (forall s, sp_get_nonce p = Some s <-> value_of $"nonce" p = Some (BToken s))
  /\ (forall s, sp_get_alg p = Some s <-> value_of $"alg" p = Some (BString s))
  /\ (forall s, sp_get_keyid p = Some s <-> value_of $"keyid" p = Some (BString s)).
Proof. exact getters. Qed.
Print Assumptions C41_getters.
(** They are printed in that order in the signature base. *)
Theorem C41_printed_in_order_of_setting :
  forall R (rl : request_like R) (r : R) (calls : list canon_call) (base : str) (si : signature_input),
  canonicalize rl r (fold_left canon_do calls cc_new) = Done (Ok (base, si)) ->
  exists p, params_set (param_calls calls) p
    /\ signature_base (rl_derive rl r) (or_default [] (last_some c_components calls)) p base.
Proof. exact @printed_params. Qed.
Print Assumptions C41_printed_in_order_of_setting.
Example C41_case : let calls := map CSetParam [PKeyid $"k1"; PCreated 5; PKeyid $"k2"; PAlg $"hmac-sha256"; PCreated 7; PNonce $"n"] in
  exists si, canonicalize rq_rl s_req (fold_left canon_do calls cc_new)
    = Done (Ok (s2b """@signature-params"": ();keyid=""k2"";created=7;alg=""hmac-sha256"";nonce=n", si)).
Proof. eexists. vm_compute. reflexivity. Qed.

(** C42: the getters of every configuration answer from the last call of their own
    setter. *)
Theorem C42_canonicalize_config : forall calls : list canon_call,
  let c := fold_left canon_do calls cc_new in
  cc_get_label c = or_default $"sig" (last_some c_label calls)
  /\ cc_components c = or_default [] (last_some c_components calls)
  /\ cc_created c = last_some (c_param p_created) calls /\ cc_expires c = last_some (c_param p_expires) calls
  /\ cc_alg c = last_some (c_param p_alg) calls /\ cc_keyid c = last_some (c_param p_keyid) calls
  /\ sp_get_nonce (cc_params c) = last_some (c_param p_nonce) calls.
Proof. exact canon_history. Qed.
Print Assumptions C42_canonicalize_config.
Theorem C42_signing_config : forall (label key_id : str) (alg : http_signer) (calls : list sign_call),
  let c := fold_left sign_do calls (sc_new label key_id alg) in
  sc_label c = label /\ sc_key_id c = key_id /\ sc_signature c = alg
  /\ sc_nonce c = last_some s_nonce calls
  /\ sc_digest c = or_default sha256_digest (last_some s_digest calls)
  /\ sc_components c = or_default [] (last_some s_components calls)
  /\ sc_compute_digest c = or_default true (last_some s_compute_digest calls)
  /\ sc_add_date c = or_default true (last_some s_add_date calls)
  /\ sc_add_host c = or_default true (last_some s_add_host calls)
  /\ sc_skip_missing c = or_default true (last_some s_skip_missing calls)
  /\ (sc_created_auto c = true <-> last_some s_created calls = Some None)
  /\ (forall t, sc_created_at c = Some t <-> last_some s_created calls = Some (Some t))
  /\ (forall o, sc_expires_relative c = Some o <-> last_some s_expires calls = Some (inl o))
  /\ (forall t, sc_expires_at c = Some t <-> last_some s_expires calls = Some (inr t)).
Proof. exact sign_history. Qed.
Print Assumptions C42_signing_config.
(** The default configuration: HMAC-SHA-256 with the key given, and the other defaults. *)
Theorem C42_default_signing_config : forall (label key_id key : str) (alg : http_signer),
  let c := sc_new_default label key_id key in let c' := sc_new label key_id alg in
  sg_name (sc_signature c) = $"hmac-sha256"
  /\ (forall msg sig rnd, vf_verify (hmac_sha256_verifier key) msg sig = true <-> sig = sg_sign (sc_signature c) rnd msg)
  /\ c = SigningConfig (sc_label c') (sc_signature c) (sc_digest c') (sc_key_id c') (sc_nonce c') (sc_components c') (sc_compute_digest c')
           (sc_add_date c') (sc_add_host c') (sc_skip_missing c') (sc_created c') (sc_expires c').
Proof. exact (fun label key_id key alg => conj eq_refl (conj (AlgFacts.hmac256_iff key) eq_refl)). Qed.
Print Assumptions C42_default_signing_config.
(** The required components are kept as a set. *)
Theorem C42_verifying_config : forall (kp : key_provider) (calls : list verify_call) (c : verifying_config),
  verify_ran (vc_new kp) calls c ->
  vc_keys c = kp
  /\ vc_digests c = or_default default_digest_provider (last_some v_digests calls)
  /\ vc_require_digest c = or_default true (last_some v_require_digest calls)
  /\ vc_validate_digest c = or_default true (last_some v_validate_digest calls)
  /\ vc_validate_date c = or_default true (last_some v_validate_date calls)
  /\ vc_date_leeway c = or_default (30 * 1000000000)%Z (last_some v_leeway calls)
  /\ match last_some v_required calls with
     | None => vc_required c = []
     | Some l => Forall component_rep l -> required_set l (vc_required c)
     end.
Proof. exact verify_history. Qed.
Print Assumptions C42_verifying_config.
(** When all of these calls return: setting two or more required components panics if one
    of them cannot be printed, nothing else does. *)
Theorem C42_verifying_config_runs : forall (calls : list verify_call) (c0 : verifying_config),
  (exists c, verify_ran c0 calls c)
  <-> forall l q, In (VRequired l) calls -> In q l -> (2 <= List.length l)%nat -> exists t, prints q t.
Proof. exact verify_runs. Qed.
Print Assumptions C42_verifying_config_runs.
(** Expected, but false: the documented default component lists. *)
Theorem C42_documented_signing_components_refuted : forall (label key_id : str) (alg : http_signer),
  ~ In (CHeader $"host") (sc_components (sc_new label key_id alg))
  /\ ~ In (CHeader $"date") (sc_components (sc_new label key_id alg))
  /\ ~ In (CHeader $"digest") (sc_components (sc_new label key_id alg)).
Proof. repeat split; intros []. Qed.
Print Assumptions C42_documented_signing_components_refuted.
Theorem C42_documented_required_components_refuted : forall kp : key_provider,
  ~ In (CHeader $"date") (vc_required (vc_new kp)).
Proof. intros kp []. Qed.
Print Assumptions C42_documented_required_components_refuted.
Example C42_case :
  let c := fold_left sign_do [SAddDate false; SCreatedAuto; SExpiresAt 9; SNonce $"n"; SCreatedAt 5; SAddHost false; SAddHost true; SExpiresRelative 3]
             (sc_new $"sig" $"k" (toy_signer $"x")) in
  sc_add_date c = false /\ sc_add_host c = true /\ sc_nonce c = Some $"n" /\ sc_created_at c = Some 5%Z
  /\ sc_created_auto c = false /\ sc_expires_relative c = Some 3%Z /\ sc_expires_at c = None.
Proof. repeat split; reflexivity. Qed.
Example C42_verifying_case : exists c,
  verify_ran (vc_new m_keys) [VRequired [CHeader $"host"; CHeader $"date"; CHeader $"host"]; VLeeway 5; VRequireDigest false] c
  /\ vc_required c = [CHeader $"date"; CHeader $"host"] /\ vc_date_leeway c = 5%Z /\ vc_require_digest c = false /\ vc_validate_date c = true.
Proof.
  eexists. split; [repeat (econstructor; [reflexivity|]); constructor|]. repeat split; reflexivity.
Qed.
Example C42_panic_case : verify_do (vc_new m_keys) (VRequired [CHeader $"host"; CDerived (dc_new [ascii_of_nat 200])]) = Panic.
Proof. reflexivity. Qed.
