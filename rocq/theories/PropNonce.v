(** The empty nonce: C44 and C103. *)
From Verif Require Import SpecElse NonceFacts PropOpt PropTail PropCalls PropShow PropElse Samples MockFacts RunFacts OptFacts SignFacts WitnessSign.

(** C44: with an empty nonce, whatever is signed makes every verifier panic that gets the Signature-Input header, with any
    configuration. *)
Theorem C44_empty_nonce_panics : forall R (cr : client_request_like R), client_laws cr ->
  forall (r r' : R) (c : signing_config) (env : sign_env) S Rem (sr : server_request_like S Rem) (s : S) (vc : verifying_config) (venv : verify_env),
  sys_clock_ok (se_sys env) -> Forall component_rep (sc_components c) -> sc_nonce c = Some [] -> sign cr r c env = Done (r', Ok tt) ->
  rl_derive (sr_rl sr) s (CHeader $"signature-input") = rl_derive (cr_rl cr) r' (CHeader $"signature-input") ->
  verify sr s vc venv = Panic.
Proof. intros R cr L r r' c env S Rem sr s vc venv. exact (sign_empty_nonce cr L r r' c env sr s vc venv). Qed.
Print Assumptions C44_empty_nonce_panics.
Example C44_empty_nonce_case : let c := sc_set_nonce m_sconf [] in sys_clock_ok (se_sys m_senv) /\ Forall component_rep (sc_components c) /\ sc_nonce c = Some []
  /\ exists r', sign mr_client m_req c m_senv = Done (r', Ok tt)
    /\ rl_derive (sr_rl mr_server) r' (CHeader $"signature-input") = rl_derive (cr_rl mr_client) r' (CHeader $"signature-input").
Proof.
  cbv zeta. split; [vm_compute; intuition discriminate|]. split; [exact (proj1 (proj2 m_safe))|]. split; [reflexivity|].
  exists (fst (sign_or mr_client m_req (sc_set_nonce m_sconf []) m_senv)). split; [vm_compute|]; reflexivity.
Qed.
(** C103: likewise for what canonicalize shows with an empty nonce. *)
Theorem C103_empty_nonce : forall (w : world) (o : opt) (stdin : str) (r : mock) (se : sign_env) (ve : verify_env) (m : str),
  op_mode o = MCanonicalize -> run_request w o stdin r -> run w o stdin se ve = Done (Ok m) -> op_nonce o = Some [] ->
  exists sp, on_last_line m sp /\ forall (w' : world) (ov : opt) (t sig : str) (se' : sign_env) (ve' : verify_env) (keys : key_provider),
    op_mode ov = MVerify -> sys_clock_ok (ve_sys ve') -> verify_opts w' ov (Ok keys) -> run_request w' ov t (carrying r sp sig) ->
    run w' ov t se' ve' = Panic.
Proof. exact shown_empty_nonce. Qed.
Print Assumptions C103_empty_nonce.
(** An empty nonce: canonicalize prints a list that verify cannot read. *)
Definition nonce_opts : opt := Opt MCanonicalize None (Some (Some (s2b "host"))) (Some $"k1") None None None (Some $"rsa-v1_5-sha256") None None (Some []).
Definition nonce_list : str := $"(""host"");nonce=;keyid=""k1"";alg=""rsa-v1_5-sha256""".
Example C103_empty_nonce_case :
  run parsing_world nonce_opts (call_stdin bare_call) m_senv m_venv = Done (Ok ($"""host"": example.com" ++ [ch_lf] ++ $"""@signature-params"": " ++ nonce_list))
  /\ forall sig, In sig [b64_encode $"a text"; $"another"] -> run parsing_world (toy_opts MVerify) (request_text (carrying (call_request bare_call) nonce_list sig)) m_senv m_venv = Panic.
Proof. split; [vm_compute; reflexivity|]. intros sig [<-|[<-|[]]]; vm_compute; reflexivity. Qed.
