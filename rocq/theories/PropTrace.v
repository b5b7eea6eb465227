(** C88: the log at level trace. *)
From Verif Require Import TraceFacts Samples MockFacts ReqFacts LineFacts DateFacts WitnessSign WitnessRound.

(** Writing the lines changes no result, for the requests of the crate. *)
Theorem C88_sign_reqwest_same : forall (cr : client_request_like rq) (r : rq) (c : signing_config) (env : sign_env),
  cr = rq_async \/ cr = rq_blocking -> utf8_line (rq_method r) (rq_url r) -> snd (sign_traced cr r c env) = sign cr r c env.
Proof. exact rq_traced. Qed.
Print Assumptions C88_sign_reqwest_same.
Theorem C88_sign_mock_same : forall (r : mock) (c : signing_config) (env : sign_env),
  utf8_line (mr_method r) (mr_url r) -> snd (sign_traced mr_client r c env) = sign mr_client r c env.
Proof. exact mr_traced. Qed.
Print Assumptions C88_sign_mock_same.
Theorem C88_verify_mock_same : forall (r : mock) (c : verifying_config) (env : verify_env), sys_clock_ok (ve_sys env) ->
  utf8_line (mr_method r) (mr_url r) -> snd (verify_traced mr_server r c env) = verify mr_server r c env.
Proof. exact mr_verify_traced. Qed.
Print Assumptions C88_verify_mock_same.
(** For every type of request, if its values are texts. *)
Theorem C88_verify_same : forall {S Rem} (sr : server_request_like S Rem) (r : S) (c : verifying_config) (env : verify_env),
  total_request (sr_rl sr) r -> sys_clock_ok (ve_sys env) -> text_values (rl_derive (sr_rl sr) r) ->
  snd (verify_traced sr r c env) = verify sr r c env.
Proof. exact @verify_traced_snd. Qed.
Print Assumptions C88_verify_same.

(** What [sign] writes: nothing if the times are bad, the missing components, or the signed
    text and the Signature-Input that goes with it. *)
Theorem C88_sign_lines : forall {R} (cr : client_request_like R), client_laws cr ->
  forall (r : R) (c : signing_config) (env : sign_env) (date : str),
  auto_safe cr r c env -> (sc_add_date c = true -> http_date (seconds (se_utc env)) date) -> text_values (completed cr r c date) ->
  forall x l, sign cr r c env = Done x -> (sign_traced cr r c env = (l, Done x) <-> sign_lines cr r c date (seconds (se_sys env)) l).
Proof. exact @sign_traced_iff. Qed.
Print Assumptions C88_sign_lines.

(** What [verify] writes: the lines of the signature base, if it comes to that, and then the
    lines at level info (C78). *)
Theorem C88_verify_lines : forall {S Rem} (sr : server_request_like S Rem) (r : S) (c : verifying_config) (env : verify_env),
  total_request (sr_rl sr) r -> sys_clock_ok (ve_sys env) -> text_values (rl_derive (sr_rl sr) r) ->
  forall l, fst (verify_traced sr r c env) = l
    <-> exists t, verify_lines sr r c env t /\ l = t ++ map TrInfo (fst (verify_log sr r c env)).
Proof. exact @verify_traced_iff. Qed.
Print Assumptions C88_verify_lines.
(** For an accepted request, exactly the lines with the text that its signature signs. *)
Theorem C88_accepted_lines : forall {S Rem} (sr : server_request_like S Rem) (r : S) (c : verifying_config) (env : verify_env) (rem : Rem) (kid : str),
  total_request (sr_rl sr) r -> clocks_ok c env -> text_values (rl_derive (sr_rl sr) r) -> verify sr r c env = Done (Ok (rem, kid)) ->
  exists cc sig base, signature_headers sr r cc sig kid /\ signature_base (rl_derive (sr_rl sr) r) (cc_components cc) (cc_params cc) base
    /\ (exists k, In k (vc_keys c kid) /\ vf_verify k base sig = true)
    /\ fst (verify_traced sr r c env) = base_lines (cc_get_label cc) (cc_components cc) (cc_params cc) base ++ [TrVerifying base].
Proof. exact @accepted_lines. Qed.
Print Assumptions C88_accepted_lines.

(** Keys are not written: another key with the same algorithm name (and other randomness)
    gives the same lines, and so do other keys that accept the same signatures. *)
Theorem C88_sign_hides_the_key : forall {R} (cr : client_request_like R) (r : R) (c : signing_config) (env env' : sign_env) (sg : http_signer),
  sg_name sg = sg_name (sc_signature c) -> se_sys env' = se_sys env -> se_utc env' = se_utc env ->
  fst (sign_traced cr r (with_signer c sg) env') = fst (sign_traced cr r c env).
Proof. exact @sign_traced_key. Qed.
Print Assumptions C88_sign_hides_the_key.
Theorem C88_verify_hides_the_keys : forall {S Rem} (sr : server_request_like S Rem) (r : S) (c : verifying_config) (env : verify_env) (kp : key_provider),
  same_acceptance (vc_keys c) kp -> verify_traced sr r (with_keys c kp) env = verify_traced sr r c env.
Proof. exact @traced_same_keys. Qed.
Print Assumptions C88_verify_hides_the_keys.
(** Values that are not to be signed are not written: requests that agree on the components of
    the configuration have the same lines. *)
Theorem C88_only_chosen_values : forall {R} (cr : client_request_like R) (r1 r2 : R) (c : signing_config) (d1 d2 : str) (now : Z) (l : list trace_line),
  (forall q, In q (sc_components c) -> completed cr r1 c d1 q = completed cr r2 c d2 q) ->
  sign_lines cr r1 c d1 now l -> sign_lines cr r2 c d2 now l.
Proof. exact @sign_lines_same. Qed.
Print Assumptions C88_only_chosen_values.

(** The logs of the two sides: a signed request arrives with its Signature-Input header.  The
    text written on verification is the one written on signing exactly if all signed values
    have arrived. *)
Theorem C88_logs_agree : forall {R} (cr : client_request_like R), client_laws cr ->
  forall {S Rem} (sr : server_request_like S Rem), server_laws sr ->
  forall (r r' : R) (c : signing_config) (env : sign_env) (date : str) (s : S) (vc : verifying_config) (venv : verify_env),
  auto_safe cr r c env -> (sc_add_date c = true -> http_date (seconds (se_utc env)) date) -> text_values (completed cr r c date) ->
  sign cr r c env = Done (r', Ok tt) -> Forall component_rep (sc_components c) -> sc_nonce c <> Some [] ->
  sys_clock_ok (ve_sys venv) -> text_values (rl_derive (sr_rl sr) s) ->
  rl_derive (sr_rl sr) s (CHeader $"signature-input") = rl_derive (cr_rl cr) r' (CHeader $"signature-input") ->
  forall b b', same_line_feeds (completed cr r c date) (rl_derive (sr_rl sr) s) (sc_components c) ->
  In (TrText b) (fst (sign_traced cr r c env)) -> In (TrVerifying b') (fst (verify_traced sr s vc venv)) ->
  (b = b' <-> forall q v, In q (sc_components c) -> completed cr r c date q = Done (Some v) -> rl_derive (sr_rl sr) s q = Done (Some v)).
Proof. exact @logs_agree. Qed.
Print Assumptions C88_logs_agree.

(** The lines of a request signed, and verified as it is and with another type of content. *)
Definition t_sconf : signing_config :=
  sc_set_compute_digest (sc_set_components m_sconf [CDerived (dc_new AT_METHOD); CHeader h_date; CHeader $"content-type"]) false.
Definition t_params : params :=
  [($"alg", BString $"toy"); ($"created", BInteger 1618884475); ($"expires", BInteger 1618884535); ($"keyid", BString $"k1")].
Definition t_inner : str := s2b "(""@method"" ""date"" ""content-type"");alg=""toy"";created=1618884475;expires=1618884535;keyid=""k1""".
Definition t_base (ct : str) : str :=
  lines [s2b """@method"": POST"; s2b """date"": Tue, 20 Apr 2021 02:07:55 GMT"; s2b """content-type"": " ++ ct; s2b """@signature-params"": " ++ t_inner].
Definition t_signed : mock := mr_set_header (mr_set_header m_req h_signature_input ($"sig=" ++ t_inner)) h_signature $"sig=:Cccd:".
Definition t_vconf : verifying_config := vc_set_require_digest (vc_set_validate_date (vc_new m_keys) false) false.
Definition t_lines (b : str) : list trace_line := base_lines $"sig" (sc_components t_sconf) t_params b.
Example C88_case :
  sign_traced mr_client m_req t_sconf m_senv = (t_lines (t_base $"text/plain"), Done (t_signed, Ok tt))
  /\ verify_traced mr_server t_signed t_vconf m_venv = (t_lines (t_base $"text/plain") ++ [TrVerifying (t_base $"text/plain")], Done (Ok (tt, $"k1")))
  /\ verify_traced mr_server (mr_set_header t_signed $"content-type" $"text/html") t_vconf m_venv
     = (t_lines (t_base $"text/html") ++ [TrVerifying (t_base $"text/html"); TrInfo LogInvalidSignature], Done (Err tt))
  /\ sign_traced mr_client (MockReq HTTP_11 $"GET" s_url $"/" [] None) (sc_set_skip_missing t_sconf false) m_senv
     = ([TrMissing [CHeader $"content-type"]], Done (MockReq HTTP_11 $"GET" s_url $"/" [($"date", $"Tue, 20 Apr 2021 02:07:55 GMT")] None, Err ECanonicalize)).
Proof. split; [vm_compute; reflexivity|]. split; [vm_compute; reflexivity|]. split; vm_compute; reflexivity. Qed.
(** These requests meet the hypotheses. *)
Example C88_meets : utf8_line (mr_method m_req) (mr_url m_req) /\ utf8_line (mr_method t_signed) (mr_url t_signed)
  /\ sys_clock_ok (ve_sys m_venv) /\ total_request mr_rl t_signed /\ text_values (mr_derive t_signed) /\ auto_safe mr_client m_req t_sconf m_senv
  /\ http_date (seconds (se_utc m_senv)) $"Tue, 20 Apr 2021 02:07:55 GMT".
Proof.
  assert (U : utf8_line $"POST" s_url).
  { repeat split; try exact I; apply utf8_valid_iff; reflexivity. }
  split; [exact U|]. split; [exact U|]. split; [vm_compute; intuition discriminate|]. split; [apply mr_total|]. split; [exact (mr_text t_signed U)|].
  split; [exact (proj1 m_safe)|]. replace $"Tue, 20 Apr 2021 02:07:55 GMT" with (fmt_http_date (seconds (se_utc m_senv))) by (vm_compute; reflexivity).
  apply fmt_is_http_date. vm_compute. intuition discriminate.
Qed.
