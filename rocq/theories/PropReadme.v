(** C84: what the example of the README signs, and its note on streamed bodies. *)
From Verif Require Import SpecAuto Samples ReadmeFacts ReqFacts.

(** The headers that [signed(&SigningConfig::new_default(label, id, key))] adds, whatever the
    request: no component is covered, and the signed text consists of the name of the algorithm
    and the key id. *)
Theorem C84_readme_headers :
  forall R (cr : client_request_like R), client_laws cr ->
  forall (r r' : R) (label id key : str) (env : sign_env),
  sys_clock_ok (se_sys env) -> sign cr r (sc_new_default label id key) env = Done (r', Ok tt) ->
  exists q sig, string_text id q
    /\ rl_derive (cr_rl cr) r' (CHeader $"signature-input") = Done (Some (s2b "sig=();alg=""hmac-sha256"";keyid=" ++ q))
    /\ vf_verify (hmac_sha256_verifier key) (s2b """@signature-params"": ();alg=""hmac-sha256"";keyid=" ++ q) sig = true
    /\ (plain label -> rl_derive (cr_rl cr) r' (CHeader $"signature") = Done (Some (label ++ $"=:" ++ sig ++ $":"))).
Proof. exact @readme_headers. Qed.
Print Assumptions C84_readme_headers.
(** So all requests, of all kinds and at all times, get the same signature. *)
Theorem C84_same_for_every_request_refuted :
  forall R1 R2 (cr1 : client_request_like R1) (cr2 : client_request_like R2), client_laws cr1 -> client_laws cr2 ->
  forall (r1 r1' : R1) (r2 r2' : R2) (label id key : str) (env1 env2 : sign_env),
  sys_clock_ok (se_sys env1) -> sys_clock_ok (se_sys env2) -> plain label ->
  sign cr1 r1 (sc_new_default label id key) env1 = Done (r1', Ok tt) ->
  sign cr2 r2 (sc_new_default label id key) env2 = Done (r2', Ok tt) ->
  forall h, In h [$"signature-input"; $"signature"] -> rl_derive (cr_rl cr1) r1' (CHeader h) = rl_derive (cr_rl cr2) r2' (CHeader h).
Proof. exact (fun R1 R2 cr1 cr2 L1 L2 => readme_same cr1 L1 cr2 L2). Qed.
Print Assumptions C84_same_for_every_request_refuted.
(** Copied to any other request without a body, whatever its method, target and headers, the
    signature is accepted. *)
Theorem C84_fits_every_request_refuted :
  forall R (cr : client_request_like R), client_laws cr ->
  forall (r r' : R) (id key : str) (env : sign_env) (m : mock) (vc : verifying_config) (venv : verify_env),
  sys_clock_ok (se_sys env) -> sign cr r (sc_new_default $"sig" id key) env = Done (r', Ok tt) ->
  In (hmac_sha256_verifier key) (vc_keys vc id) ->
  (forall h, In h [$"signature-input"; $"signature"] -> mr_derive m (CHeader h) = rl_derive (cr_rl cr) r' (CHeader h)) ->
  sys_clock_ok (ve_sys venv) -> vc_validate_date vc = false -> vc_required vc = [] ->
  mr_body m = None -> mr_derive m (CHeader $"digest") = Done None ->
  verify mr_server m vc venv = Done (Ok (tt, id)).
Proof. exact @readme_fits_any. Qed.
Print Assumptions C84_fits_every_request_refuted.
(** The same for every algorithm, every kind of request and every body whose digest is right. *)
Theorem C84_no_components_refuted :
  forall R (cr : client_request_like R), client_laws cr ->
  forall (r r' : R) (c : signing_config) (env : sign_env),
  forall S Rem (sr : server_request_like S Rem), server_laws sr ->
  forall (s : S) (vc : verifying_config) (venv : verify_env) (k : http_verifier),
  sys_clock_ok (se_sys env) -> sign cr r c env = Done (r', Ok tt) ->
  sc_components c = [] -> sc_nonce c <> Some [] -> sc_label c = $"sig" ->
  matching (sc_signature c) (se_rnd env) k -> In k (vc_keys vc (sc_key_id c)) ->
  rl_derive (sr_rl sr) s (CHeader $"signature-input") = rl_derive (cr_rl cr) r' (CHeader $"signature-input") ->
  rl_derive (sr_rl sr) s (CHeader $"signature") = rl_derive (cr_rl cr) r' (CHeader $"signature") ->
  sys_clock_ok (ve_sys venv) -> vc_validate_date vc = false -> vc_required vc = [] -> digest_ok sr s vc ->
  (forall t, created_at c (seconds (se_sys env)) = Some t -> (t <= seconds (ve_sys venv))%Z) ->
  (forall t, expires_at c (seconds (se_sys env)) = Some t -> (seconds (ve_sys venv) <= t)%Z) ->
  exists rem, verify sr s vc venv = Done (Ok (rem, sc_key_id c)).
Proof. exact (fun R cr L r r' c env S Rem sr SL => fits_any cr L r r' c env sr SL). Qed.
Print Assumptions C84_no_components_refuted.
(** A GET request for one URL, a DELETE request for another: the same headers, both accepted. *)
Definition rd_sent : mock := MockReq HTTP_11 $"GET" s_url $"/" [] None.
Definition rd_conf : signing_config := sc_new $"sig" $"My Key" (toy_signer $"secret").
Definition rd_other (r : mock) : mock :=
  MockReq (mr_version r) $"DELETE" s_url $"/all" (hm_insert (mr_headers r) $"x-user" $"root") None.
Example C84_case : exists r', sign mr_client rd_sent rd_conf m_senv = Done (r', Ok tt)
  /\ sc_components rd_conf = [] /\ sc_components (sc_new_default $"sig" $"My Key" $"secret") = []
  /\ verify mr_server (rd_other r') (vc_set_validate_date (vc_new (fun _ => [toy_verifier $"secret"])) false) m_venv = Done (Ok (tt, $"My Key")).
Proof. eexists. split; [vm_compute; reflexivity|]. split; [reflexivity|]. split; [reflexivity|]. vm_compute. reflexivity. Qed.
Example C84_default_case : exists r', sign mr_client rd_sent (sc_new_default $"sig" $"My Key" $"secret") m_senv = Done (r', Ok tt).
Proof. eexists. vm_compute. reflexivity. Qed.

(** The note: the digest of a streamed body of the asynchronous client is in the signature if and
    only if there was a Digest header before. *)
Theorem C84_streamed_digest :
  forall (r r' : rq) (c : signing_config) (env : sign_env) (o : option str),
  rq_bod r = BStream o -> sc_digest c = sha256_digest \/ sc_digest c = sha512_digest ->
  sys_clock_ok (se_sys env) -> (sc_add_date c = true -> utc_clock_ok (se_utc env)) -> (forall h, u_host (rq_url r) = Some h -> plain h) ->
  sign rq_async r c env = Done (r', Ok tt) ->
  Forall component_rep (sc_components c) -> sc_nonce c <> Some [] -> In (CHeader $"digest") (sc_components c) ->
  exists input cc, rq_derive r' (CHeader $"signature-input") = Done (Some input) /\ input_reads input cc
    /\ (In (CHeader $"digest") (cc_components cc) <-> exists v, rq_derive r (CHeader $"digest") = Done (Some v)).
Proof. exact streamed_async. Qed.
Print Assumptions C84_streamed_digest.
(** If missing components are not skipped, such a request is not signed. *)
Theorem C84_streamed_not_signed :
  forall (r r' : rq) (c : signing_config) (env : sign_env) (o : option str),
  rq_bod r = BStream o -> sc_digest c = sha256_digest \/ sc_digest c = sha512_digest ->
  sys_clock_ok (se_sys env) -> (sc_add_date c = true -> utc_clock_ok (se_utc env)) -> (forall h, u_host (rq_url r) = Some h -> plain h) ->
  In (CHeader $"digest") (sc_components c) -> sc_skip_missing c = false -> rq_derive r (CHeader $"digest") = Done None ->
  sign rq_async r c env <> Done (r', Ok tt).
Proof. exact streamed_strict. Qed.
Print Assumptions C84_streamed_not_signed.
(** With the blocking client the digest of the streamed body is added and covered. *)
Theorem C84_streamed_blocking :
  forall (r r' : rq) (c : signing_config) (env : sign_env) (b t : str),
  rq_bod r = BStream (Some b) -> standard_digest (sc_digest c) b t -> sc_compute_digest c = true -> hm_get (rq_headers r) $"digest" = None ->
  sys_clock_ok (se_sys env) -> (sc_add_date c = true -> utc_clock_ok (se_utc env)) -> (forall h, u_host (rq_url r) = Some h -> plain h) ->
  sign rq_blocking r c env = Done (r', Ok tt) ->
  Forall component_rep (sc_components c) -> sc_nonce c <> Some [] -> In (CHeader $"digest") (sc_components c) ->
  exists input cc, rq_derive r' (CHeader $"signature-input") = Done (Some input) /\ input_reads input cc
    /\ In (CHeader $"digest") (cc_components cc) /\ rq_derive r' (CHeader $"digest") = Done (Some t).
Proof. exact streamed_blocking. Qed.
Print Assumptions C84_streamed_blocking.
Definition rd_stream : rq := Rq $"POST" s_url [] (BStream (Some $"abc")).
Definition rd_covering : signing_config := sc_set_components rd_conf [CDerived (dc_new AT_METHOD); CHeader $"digest"].
Example C84_streamed_case : Forall component_rep (sc_components rd_covering)
  /\ (exists r', sign rq_async rd_stream rd_covering m_senv = Done (r', Ok tt)
        /\ hm_get (rq_headers r') $"signature-input" = Some (s2b "sig=(""@method"");alg=""toy"";keyid=""My Key"""))
  /\ (exists r', sign rq_blocking rd_stream rd_covering m_senv = Done (r', Ok tt)
        /\ hm_get (rq_headers r') $"signature-input" = Some (s2b "sig=(""@method"" ""digest"");alg=""toy"";keyid=""My Key"""))
  /\ (exists r', sign rq_async rd_stream (sc_set_skip_missing rd_covering false) m_senv = Done (r', Err ECanonicalize)).
Proof.
  split. { do 2 (constructor; [apply CanonFacts.component_repb_rep; vm_compute; reflexivity|]). constructor. }
  split; [eexists; split; vm_compute; reflexivity|]. split; [eexists; split; vm_compute; reflexivity|]. eexists. vm_compute. reflexivity.
Qed.
