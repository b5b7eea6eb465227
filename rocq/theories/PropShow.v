(** What canonicalize shows is not what sign signs: C102. *)
From Verif Require Import SpecShow ShowFacts PropOpt PropTail PropCalls Samples MockFacts RunFacts OptFacts CanonFacts SpecSign.

(** C102: no text that canonicalize prints is a text that a run of sign signs, whatever the options, the requests and the
    keys. *)
Theorem C102_never_what_is_signed : forall (w w' : world) (o : opt) (stdin : str) (se : sign_env) (ve : verify_env) (m : str) (k : sign_command),
  op_mode o = MCanonicalize -> run w o stdin se ve = Done (Ok m) -> ~ call_signed w' k m.
Proof. exact never_signed. Qed.
Print Assumptions C102_never_what_is_signed.
(** A run of sign that prints something signs one text, and prints the request with the signature of that text. *)
Theorem C102_what_a_run_signs : forall (w : world) (k : sign_command) (ve : verify_env) (out : str),
  op_mode (call_opts k) = MSign -> sys_clock_ok (se_sys (call_env k)) -> run_request w (call_opts k) (call_stdin k) (call_request k) ->
  run w (call_opts k) (call_stdin k) (call_env k) ve = Done (Ok out) ->
  exists c sp m, sign_opts w (call_opts k) (Ok c) /\ (forall m', call_signed w k m' <-> m' = m)
    /\ out = request_text (signed_request (call_request k) c (se_rnd (call_env k)) sp m).
Proof. exact run_signs. Qed.
Print Assumptions C102_what_a_run_signs.
(** With the same options and the same request, the texts are alike up to the parameters: sign drops the nonce, has a key id
    even if none is given, puts the algorithm first and calls one of them by another name. *)
Theorem C102_alike_but_parameters : forall (w : world) (o : opt) (stdin : str) (se : sign_env) (ve : verify_env) (m m' : str) (k : sign_command),
  op_mode o = MCanonicalize -> run w o stdin se ve = Done (Ok m) ->
  run_request w o stdin (call_request k) -> call_opts k = as_mode MSign o -> call_signed w k m' ->
  exists a n, op_algorithm o = Some a /\ announced a n /\ alike_but m m' (params_printed o a) (params_signed o n).
Proof. exact shown_alike. Qed.
Print Assumptions C102_alike_but_parameters.
(** canonicalize prints something for whatever sign signs, unless the nonce is not a token. *)
Theorem C102_shown_if_signed : forall (w : world) (o : opt) (stdin : str) (se : sign_env) (ve : verify_env) (m' : str) (k : sign_command),
  op_mode o = MCanonicalize -> run_request w o stdin (call_request k) -> call_opts k = as_mode MSign o -> call_signed w k m' ->
  ((exists m, run w o stdin se ve = Done (Ok m)) <-> forall s, op_nonce o = Some s -> exists t, token_text s t).
Proof. exact shown_token. Qed.
Print Assumptions C102_shown_if_signed.

(** A run of sign, the text it signs and the text that canonicalize prints for it. *)
Definition last_line (s : str) : str := $"""host"": example.com" ++ [ch_lf] ++ $"""@method"": GET" ++ [ch_lf] ++ $"""@signature-params"": (""host"" ""@method"")" ++ s.
Example C102_case : call_made parsing_world bare_call
  /\ call_signed parsing_world bare_call (last_line $";alg=""rsa-v1_5-sha256"";created=1618884475;expires=1618884535;keyid=""k1""")
  /\ op_mode (toy_opts MCanonicalize) = MCanonicalize /\ call_opts bare_call = as_mode MSign (toy_opts MCanonicalize)
  /\ run_request parsing_world (toy_opts MCanonicalize) (call_stdin bare_call) (call_request bare_call)
  /\ run parsing_world (toy_opts MCanonicalize) (call_stdin bare_call) m_senv m_venv
     = Done (Ok (last_line $";created=1618884475;expires=1618884535;keyid=""k1"";alg=""rsa-v1_5-sha256""")).
Proof.
  pose proof C101_case as (F & _). inversion F as [|x l H _]; subst. split; [exact H|].
  split; [|split; [reflexivity|split; [reflexivity|split]]].
  - assert (X : exists c, signing_config_of parsing_world (toy_opts MSign) = Ok c) by (eexists; reflexivity). destruct X as [c X].
    pose proof (sign_opts_sound parsing_world (toy_opts MSign)) as So. rewrite X in So. exists c. split; [exact So|].
    destruct (stamp_params _ _ _ (seconds (se_sys (call_env bare_call))) So) as (a & n & t & oc & A & _ & N & G & Cs & St). rewrite Cs, St.
    assert (Gv : given (toy_opts MSign) (Some [CHeader $"host"; CDerived (dc_new AT_METHOD)])) by (apply given_iff; vm_compute; reflexivity).
    rewrite (given_fun _ _ _ G Gv). injection A as <-. destruct N as [[_ ->]|[N _]]; [|discriminate N].
    set (rl := RequestLike unit (fun _ => mr_derive (call_request bare_call)) (fun _ _ => Panic)).
    set (cc := CanonConfig None [CHeader $"host"; CDerived (dc_new AT_METHOD)] (params_signed (toy_opts MSign) $"rsa-v1_5-sha256")).
    apply (proj1 (proj1 (canonicalize_ok rl tt cc _ (cc_to_signature_input cc)) ltac:(vm_compute; reflexivity))).
  - exists (request_text bare_req); split; [reflexivity|]; apply read_accepts; vm_compute; reflexivity.
  - vm_compute. reflexivity.
Qed.
(** So the README's claim about it fails. *)
Theorem C102_what_is_digested_refuted : ~ forall (w : world) (o : opt) (stdin : str) (se : sign_env) (ve : verify_env) (m : str) (k : sign_command),
  op_mode o = MCanonicalize -> run w o stdin se ve = Done (Ok m) -> run_request w o stdin (call_request k) ->
  call_made w k -> call_opts k = as_mode MSign o -> call_signed w k m.
Proof.
  intro H. pose proof C102_case as (A & _ & B & C & D & E).
  exact (C102_never_what_is_signed _ _ _ _ _ _ _ _ B E (H _ _ _ _ _ _ _ B E D A C)).
Qed.
Print Assumptions C102_what_is_digested_refuted.
