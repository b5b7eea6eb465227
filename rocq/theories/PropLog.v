(** C78: the log of a rejection says why (the lines that [verify] writes). *)
From Verif Require Import LogFacts Samples.

(** The lines are an addition: the answer is that of [verify]. *)
Theorem C78_logging_changes_nothing : forall {S Rem} (sr : server_request_like S Rem) (r : S) (c : verifying_config) (env : verify_env),
  snd (verify_log sr r c env) = verify sr r c env.
Proof. exact @verify_log_snd. Qed.
Print Assumptions C78_logging_changes_nothing.

(** Rejected with lines [l]: exactly when [l] names the first check that fails. *)
Theorem C78_rejection_says_why : forall {S Rem} (sr : server_request_like S Rem) (r : S) (c : verifying_config) (env : verify_env),
  clocks_ok c env -> forall l, (exists rem, verify_log sr r c env = (l, Done (Err rem))) <-> why sr r c env l.
Proof. exact @why_log. Qed.
Print Assumptions C78_rejection_says_why.

(** So the reasons exclude each other. *)
Theorem C78_one_reason : forall {S Rem} (sr : server_request_like S Rem) (r : S) (c : verifying_config) (env : verify_env),
  clocks_ok c env -> forall l l', why sr r c env l -> why sr r c env l' -> l = l'.
Proof. exact @why_unique. Qed.
Print Assumptions C78_one_reason.

(** Nothing is written for an accepted request; every rejected one has its reason. *)
Theorem C78_verdict_and_log : forall {S Rem} (sr : server_request_like S Rem) (r : S) (c : verifying_config) (env : verify_env),
  clocks_ok c env ->
  (forall rem kid, verify sr r c env = Done (Ok (rem, kid)) -> verify_log sr r c env = ([], Done (Ok (rem, kid))))
  /\ (forall rem, verify sr r c env = Done (Err rem) -> exists l, verify_log sr r c env = (l, Done (Err rem)) /\ why sr r c env l).
Proof. exact @verdict_log. Qed.
Print Assumptions C78_verdict_and_log.

(** One line per rejection, but two for a Signature header without "=".  "No keys found
    for this keyId" is never written. *)
Theorem C78_one_line : forall {S Rem} (sr : server_request_like S Rem) (r : S) (c : verifying_config) (env : verify_env),
  clocks_ok c env -> forall l, why sr r c env l ->
  (exists x, l = [x] /\ x <> LogNoKeys /\ x <> LogUnparsedInput /\ x <> LogMalformedInput /\ x <> LogBadSignatureInput)
  \/ l = [LogMalformedSignature; LogMalformedSignature].
Proof. intros S Rem sr r c env _. exact (why_lines sr r c env). Qed.
Print Assumptions C78_one_line.

(** The log does not depend on the keys beyond the verdicts they give. *)
Theorem C78_log_hides_the_keys : forall {S Rem} (sr : server_request_like S Rem) (r : S) (c : verifying_config) (env : verify_env) (kp : key_provider),
  same_acceptance (vc_keys c) kp -> verify_log sr r (with_keys c kp) env = verify_log sr r c env.
Proof. exact @log_same_keys. Qed.
Print Assumptions C78_log_hides_the_keys.

(** The texts a sender can put in a line: key id and algorithm are visible ASCII and spaces
    (no line break), the components are among those of the request. *)
Theorem C78_texts_of_the_sender : forall {S Rem} (sr : server_request_like S Rem) (r : S) (c : verifying_config) (env : verify_env),
  clocks_ok c env -> forall l rem, verify_log sr r c env = (l, Done (Err rem)) ->
  (forall kid alg, In (LogUnknownKey kid alg) l -> Forall visible kid /\ Forall visible alg)
  /\ (forall e, In (LogCanonicalization e) l -> exists cc missing, input_is sr r cc /\ e = EMissingComponents missing
        /\ forall q, In q missing -> In q (cc_components cc) /\ component_rep q)
  /\ (forall t, In (LogNotCovered t) l -> exists q, In q (vc_required c)
        /\ match q with CHeader h => t = h | CDerived d => item_text (dc_item d) t end).
Proof. exact @log_texts. Qed.
Print Assumptions C78_texts_of_the_sender.

(** A Signature-Input header that cannot be read: the lines before the panic. *)
Theorem C78_lines_before_a_panic : forall {S Rem} (sr : server_request_like S Rem) (r : S) (c : verifying_config) (env : verify_env) (input : str),
  header_value sr r $"signature-input" input ->
  ((forall d, ~ dictionary_reads input d) -> verify_log sr r c env = ([LogUnparsedInput; LogBadSignatureInput], Panic))
  /\ (dictionary_reads input [] -> verify_log sr r c env = ([LogMalformedInput; LogBadSignatureInput], Panic))
  /\ (forall key i others, dictionary_reads input ((key, LEItem i) :: others) -> verify_log sr r c env = ([LogBadSignatureInput], Panic))
  /\ (forall label items p i, first_member input label items p -> In i items -> (forall q, ~ reads_as i q) ->
        verify_log sr r c env = ([], Panic)).
Proof. exact @unreadable_lines. Qed.
Print Assumptions C78_lines_before_a_panic.

(** The signed request of Samples.v: accepted, and rejected in several ways. *)
Definition l_set (h v : str) : mock := mr_set_header m_signed h v.
Definition l_with (hs : list (str * str)) : mock :=
  MockReq (mr_version m_signed) (mr_method m_signed) (mr_url m_signed) (mr_path m_signed) hs (mr_body m_signed).
Definition l_vconf (kp : key_provider) : verifying_config := with_keys m_vconf kp.
Definition l_dated : verifying_config := vc_set_validate_date m_vconf true.
Example C78_accepted : clocks_ok m_vconf m_venv /\ verify_log mr_server m_signed m_vconf m_venv = ([], Done (Ok (tt, $"k1"))).
Proof. split; [vm_compute; intuition congruence|]. vm_compute. reflexivity. Qed.
Example C78_case :
  verify_log mr_server (l_with []) m_vconf m_venv = ([LogNoSignatureInput], Done (Err tt))
  /\ verify_log mr_server (l_with [(h_signature_input, m_input)]) m_vconf m_venv = ([LogNoSignature], Done (Err tt))
  /\ verify_log mr_server (l_set h_signature $"sig") m_vconf m_venv = ([LogMalformedSignature; LogMalformedSignature], Done (Err tt))
  /\ verify_log mr_server (l_set h_signature $"other=:Rvnb:") m_vconf m_venv = ([LogLabels], Done (Err tt))
  /\ verify_log mr_server (l_set h_signature $"sig=:AAAA:") m_vconf m_venv = ([LogInvalidSignature], Done (Err tt))
  /\ verify_log mr_server m_signed (l_vconf (fun _ => [])) m_venv = ([LogUnknownKey $"k1" $"toy"], Done (Err tt))
  /\ verify_log mr_server m_signed m_vconf (VerifyEnv 1618884474999999999 0) = ([LogCreated], Done (Err tt))
  /\ verify_log mr_server m_signed m_vconf (VerifyEnv 1618884536000000000 0) = ([LogExpires], Done (Err tt))
  /\ verify_log mr_server m_signed l_dated m_venv = ([LogNoDate], Done (Err tt))
  /\ verify_log mr_server (l_set h_signature_input $"sig=(") m_vconf m_venv = ([LogUnparsedInput; LogBadSignatureInput], Panic)
  /\ verify_log mr_server (l_set h_signature_input $"sig=1") m_vconf m_venv = ([LogBadSignatureInput], Panic)
  /\ verify_log mr_server (l_set h_signature_input []) m_vconf m_venv = ([LogMalformedInput; LogBadSignatureInput], Panic)
  /\ verify_log mr_server (l_set h_signature_input $"sig=(1)") m_vconf m_venv = ([], Panic).
Proof. vm_compute. repeat split; reflexivity. Qed.
Example C78_missing_component :
  let r := l_set h_signature_input (s2b "sig=(""x-none"" ""@method"");keyid=""k1"";alg=""toy""") in
  verify_log mr_server r m_vconf m_venv = ([LogCanonicalization (EMissingComponents [CHeader $"x-none"])], Done (Err tt)).
Proof. vm_compute. reflexivity. Qed.
Example C78_other_keys : same_acceptance m_keys (fun kid => m_keys kid ++ m_keys kid).
Proof.
  intro kid. split.
  - split; [intros ->; reflexivity|]. intro H. now apply app_eq_nil in H.
  - intros base sig. split; intros (k & I & V); exists k; (split; [|exact V]); [apply in_or_app; now left|].
    apply in_app_or in I. tauto.
Qed.
