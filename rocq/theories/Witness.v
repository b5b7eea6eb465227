(** Witnesses for the statements that are false of the code, and small corollaries. *)
From Verif Require Export MoreVerify Samples.

Lemma required_method_rejected :
  exists (r : mock) (c c' : verifying_config) (env : verify_env) (input : str) (cc : canon_config) (q : component),
  verify mr_server r c env = Done (Ok (tt, $"k1"))
  /\ header_value mr_server r $"signature-input" input /\ input_reads input cc /\ In q (cc_components cc)
  /\ vc_set_required c [q] = Done c' /\ verify mr_server r c' env = Done (Err tt).
Proof.
  assert (P : exists cc, cc_parse m_input = Done (Ok cc) /\ In (CDerived (dc_new AT_METHOD)) (cc_components cc)).
  { eexists. split; [vm_compute; reflexivity|]. now left. }
  destruct P as (cc & P1 & P2). apply cc_parse_iff in P1.
  assert (V : exists c', vc_set_required m_vconf [CDerived (dc_new AT_METHOD)] = Done c'
                         /\ verify mr_server m_signed c' m_venv = Done (Err tt)).
  { eexists. split; [reflexivity|]. vm_compute. reflexivity. }
  destruct V as (c' & V1 & V2).
  exists m_signed, m_vconf, c', m_venv, m_input, cc, (CDerived (dc_new AT_METHOD)).
  split; [vm_compute; reflexivity|]. split; [vm_compute; reflexivity|]. auto.
Qed.

(** A signed request that covers only @method. *)
Definition w_input : str := s2b "sig=(""@method"");alg=""toy"";created=1618884475;expires=1618884535;keyid=""k1""".
Definition w_signed : mock :=
  mr_set_header (mr_set_header m_signed h_signature_input w_input) h_signature $"sig=:J3Aa:".
Lemma digest_not_covered :
  exists (r : mock) (c : verifying_config) (env : verify_env) (input : str) (cc : canon_config),
  vc_require_digest c = true /\ vc_validate_digest c = true /\ mr_body r <> None
  /\ verify mr_server r c env = Done (Ok (tt, $"k1"))
  /\ header_value mr_server r $"signature-input" input /\ input_reads input cc
  /\ ~ In (CHeader $"digest") (cc_components cc).
Proof.
  assert (P : exists cc, cc_parse w_input = Done (Ok cc) /\ cc_components cc = [CDerived (dc_new AT_METHOD)]).
  { eexists. split; [vm_compute; reflexivity|]. reflexivity. }
  destruct P as (cc & P1 & P2). apply cc_parse_iff in P1. exists w_signed, m_vconf, m_venv, w_input, cc.
  split; [reflexivity|]. split; [reflexivity|]. split; [vm_compute; discriminate|]. split; [vm_compute; reflexivity|].
  split; [vm_compute; reflexivity|]. split; [exact P1|]. rewrite P2. intros [F|[]]. discriminate F.
Qed.

Lemma required_digest_covered (r : mock) (env : verify_env) (c c' : verifying_config) (l : list component) (kid body : str) :
  Forall component_rep l -> In (CHeader $"digest") l -> vc_set_required c l = Done c' ->
  vc_require_digest c = true -> vc_validate_digest c = true -> vc_digests c = default_digest_provider ->
  verify mr_server r c' env = Done (Ok (tt, kid)) -> mr_body r = Some body ->
  exists input cc dv alg v,
    header_value mr_server r $"signature-input" input /\ input_reads input cc
    /\ In (CHeader $"digest") (cc_components cc)
    /\ header_value mr_server r $"digest" dv /\ first_entry default_digest_provider dv alg v
    /\ (alg = sha256_digest /\ v = b64_bits (sha256 body) \/ alg = sha512_digest /\ v = b64_bits (sha512 body)).
Proof.
  intros Hr Hin Hs R V D A B.
  destruct (set_required_listed mr_server r env c c' l tt kid _ Hr Hs A Hin) as (input & cc & H1 & H2 & H3).
  assert (E : vc_require_digest c' = true /\ vc_validate_digest c' = true /\ vc_digests c' = default_digest_provider).
  { unfold vc_set_required in Hs. destruct (sort_components l); [|discriminate]. cbn [obind] in Hs. injection Hs as <-. auto. }
  destruct E as (R' & V' & D').
  assert (X : exists o, rl_derive (sr_rl mr_server) r (CHeader $"digest") = Done o) by (eexists; reflexivity).
  destruct X as [[dv|] X].
  - destruct (mock_digest r c' env kid dv V' D' A X) as (b & alg & v & B' & F & G). rewrite B in B'. injection B' as <-.
    exists input, cc, dv, alg, v. auto 10.
  - exfalso. revert A. apply (digest_required mr_server r c' env tt kid (dg_digest sha256_digest body) R' X).
    cbn [mr_server sr_complete_with_digest]. unfold mr_complete_with_digest. now rewrite B.
Qed.

Lemma verify_panics : exists (r : mock), verify mr_server r (vc_new m_keys) m_venv = Panic
    /\ hm_get (mr_headers r) $"signature-input" = Some (s2b "sig=(1)").
Proof. exists (mr_set_header m_req h_signature_input (s2b "sig=(1)")). split; vm_compute; reflexivity. Qed.
Lemma verify_panic_text {S Rem} (sr : server_request_like S Rem) (r : S) (c : verifying_config) (env : verify_env) :
  total_request (sr_rl sr) r -> sys_clock_ok (ve_sys env) -> (vc_validate_date c = true -> utc_clock_ok (ve_utc env)) ->
  (forall d, In (CDerived d) (vc_required c) -> exists t, item_text (dc_item d) t) ->
  (verify sr r c env = Panic <->
   exists input, header_value sr r $"signature-input" input
     /\ ~ exists label items p, first_member input label items p /\ Forall (fun i => exists q, reads_as i q) items).
Proof.
  intros T O1 O2 Hr. rewrite verify_panic_iff; [|assumption..|].
  2:{ apply Forall_forall. intros [d|h] Hq; [exact (Hr d Hq)|now exists h]. }
  split; intros (input & H1 & H2); exists input; (split; [exact H1|]);
    now apply cc_parse_not_ok.
Qed.

Lemma all_reject_commas (cy : crypto) (t : key_type) (key : str) :
  rejects_commas (hmac_sha256_verifier key) /\ rejects_commas (hmac_sha512_verifier key)
  /\ rejects_commas (ring_verifier cy t key)
  /\ (forall k, openssl_verifier cy t key = Some k -> rejects_commas k).
Proof.
  destruct (hmac_rejects_commas key) as [A B]. split; [exact A|]. split; [exact B|]. split; [apply ring_rejects_commas|].
  intros k. apply openssl_rejects_commas.
Qed.
Lemma two_signatures :
  exists (r r' : mock) (c : verifying_config) (env : verify_env) (input sigv : str),
  verify mr_server r c env = Done (Ok (tt, $"k1"))
  /\ header_value mr_server r $"signature-input" input /\ header_value mr_server r $"signature" sigv
  /\ header_value mr_server r' $"signature-input" (input ++ s2b ", proxy=()")
  /\ header_value mr_server r' $"signature" (sigv ++ s2b ", proxy=:AAAA:")
  /\ verify mr_server r' c env = Done (Err tt).
Proof.
  exists m_signed, (mr_set_header (mr_set_header m_signed h_signature_input (m_input ++ s2b ", proxy=()"))
                      h_signature (m_sigv ++ s2b ", proxy=:AAAA:")), m_vconf, m_venv, m_input, m_sigv.
  repeat split; vm_compute; reflexivity.
Qed.

Lemma field_parameter_lost :
  exists (r : mock) (cc : canon_config) (base : str),
  cc_parse (s2b "sig=(""date"";sf)") = Done (Ok cc)
  /\ signature_base (mr_derive r) (cc_components cc) (cc_params cc) base
  /\ base = lines [s2b """date"": today"; s2b """@signature-params"": (""date"")"].
Proof.
  set (r := MockReq HTTP_11 $"GET" s_url [] [(h_date, $"today")] None).
  assert (P : exists cc, cc_parse (s2b "sig=(""date"";sf)") = Done (Ok cc)
    /\ exists si, canonicalize mr_rl r cc = Done (Ok (lines [s2b """date"": today"; s2b """@signature-params"": (""date"")"], si))).
  { eexists. split; [vm_compute; reflexivity|]. eexists. vm_compute. reflexivity. }
  destruct P as (cc & P & si & C). exists r, cc. eexists. split; [exact P|]. split; [|reflexivity].
  apply canonicalize_ok_spec in C. exact (proj1 C).
Qed.
Lemma derived_parameters_kept (s label n : str) (items : list item) (p : list (str * bare)) (cc : canon_config) (i : item) :
  input_reads s cc -> first_member s label items p -> In i items -> it_bare i = BString ("@"%char :: n) ->
  In (CDerived (Derived i)) (cc_components cc).
Proof.
  intros H F I B. destruct H as (items' & F' & _ & R). apply first_member_iff in F, F'. destruct F as [o F]. destruct F' as [o' F']. rewrite F in F'.
  injection F' as _ <- _ _. clear F. induction R as [|j q l1 l2 Rj _ IH]; [destruct I|]. destruct I as [->|I]; [|right; now apply IH].
  left. destruct Rj as [(n' & _ & ->)|(n' & h & B' & (_ & _ & N) & _)]; [reflexivity|]. rewrite B in B'. injection B' as <-.
  inversion N as [|? ? T _]; subst. exfalso. revert T. unfold tchar, letter, digit, one_of. cbn. intuition (lia || discriminate).
Qed.
