(** Signatures made elsewhere over what canonicalize shows: C103. *)
From Verif Require Import SpecElse ElseFacts PropOpt PropTail PropCalls PropShow Samples MockFacts RunFacts OptFacts RoundTrip.

(** C103: a signature over the text that canonicalize prints, made with any tool and put into the request with the list on the
    last line of that text, is accepted by verify exactly if a key given for the key id accepts it for that text, the Digest header, if any, is right
    and the time is within those given to canonicalize.  So the text is what verify digests. *)
Theorem C103_signed_elsewhere : forall (w : world) (o : opt) (stdin : str) (r : mock) (se : sign_env) (ve : verify_env) (m : str),
  op_mode o = MCanonicalize -> run_request w o stdin r -> run w o stdin se ve = Done (Ok m) -> op_nonce o <> Some [] ->
  (forall cs p, given o (Some cs) -> In p cs -> ~ signature_header p) ->
  exists sp, on_last_line m sp /\ forall (w' : world) (ov : opt) (t sig : str) (se' : sign_env) (ve' : verify_env),
    op_mode ov = MVerify -> sys_clock_ok (ve_sys ve') -> plain sig -> clean_signature sig -> run_request w' ov t (carrying r sp sig) ->
    (run w' ov t se' ve' = Done (Ok []) <->
     (exists kid keys k, op_key_id o = Some kid /\ verify_opts w' ov (Ok keys) /\ In k (keys kid) /\ vf_verify k m sig = true) /\ honest_digest r
     /\ (forall t, op_created o = Some t -> (t <= seconds (ve_sys ve'))%Z) /\ (forall t, op_expires o = Some t -> (seconds (ve_sys ve') <= t)%Z)).
Proof. exact signed_elsewhere. Qed.
Print Assumptions C103_signed_elsewhere.
(** The last line of a text is the only one. *)
Theorem C103_last_line : forall (m sp sp' : str), on_last_line m sp -> on_last_line m sp' -> sp = sp'.
Proof. exact last_line_fun. Qed.
Print Assumptions C103_last_line.
(** Base64 is such a text, for any bytes. *)
Theorem C103_base64 : forall s : str, plain (b64_encode s) /\ clean_signature (b64_encode s).
Proof. intro s. exact (conj (b64_plain s) (b64_clean s)). Qed.
Print Assumptions C103_base64.

(** The text of C102's case, signed by another tool (here with the same toy key), and then with another text. *)
Definition shown_text : str := PropShow.last_line $";created=1618884475;expires=1618884535;keyid=""k1"";alg=""rsa-v1_5-sha256""".
Definition shown_list : str := $"(""host"" ""@method"");created=1618884475;expires=1618884535;keyid=""k1"";alg=""rsa-v1_5-sha256""".
Example C103_case : on_last_line shown_text shown_list
  /\ run parsing_world (toy_opts MCanonicalize) (call_stdin bare_call) m_senv m_venv = Done (Ok shown_text)
  /\ (forall cs p, given (toy_opts MCanonicalize) (Some cs) -> In p cs -> ~ signature_header p)
  /\ (let q := carrying (call_request bare_call) shown_list (b64_encode shown_text) in
      run_request parsing_world (toy_opts MVerify) (request_text q) q /\ run parsing_world (toy_opts MVerify) (request_text q) m_senv m_venv = Done (Ok []))
  /\ (let q := carrying (call_request bare_call) shown_list (b64_encode $"another text") in
      run_request parsing_world (toy_opts MVerify) (request_text q) q /\ run parsing_world (toy_opts MVerify) (request_text q) m_senv m_venv = Done (Err VSig)).
Proof.
  split; [|split; [|split; [|split]]].
  - split; [vm_compute; intuition discriminate|]. exists ($"""host"": example.com" ++ [ch_lf] ++ $"""@method"": GET" ++ [ch_lf]).
    split; [right; exists ($"""host"": example.com" ++ [ch_lf] ++ $"""@method"": GET"); now rewrite <- !app_assoc|reflexivity].
  - vm_compute. reflexivity.
  - intros cs p G. assert (E : given (toy_opts MCanonicalize) (Some [CHeader $"host"; CDerived (dc_new AT_METHOD)])) by (apply given_iff; vm_compute; reflexivity).
    pose proof (given_fun _ _ _ G E) as X. injection X as ->. intros [<-|[<-|[]]] [Y|Y]; discriminate Y.
  - cbv zeta. split; [eexists; split; [reflexivity|]; apply read_accepts; vm_compute; reflexivity|vm_compute; reflexivity].
  - cbv zeta. split; [eexists; split; [reflexivity|]; apply read_accepts; vm_compute; reflexivity|vm_compute; reflexivity].
Qed.
