(** The validator's command line: C48 and C52. *)
From Verif Require Import PipeFacts Samples SpecRun RunFacts.

(** C48: sign.  The configuration built from the options, or the error (SpecOpt.v). *)
Theorem C48_sign_options : forall (w : world) (o : opt) (r : result signing_config verror),
  signing_config_of w o = r <-> sign_opts w o r.
Proof. exact sign_opts_iff. Qed.
Print Assumptions C48_sign_options.
(** verify: the options determine the keys or the error, and the configuration has these
    keys and otherwise fixed settings. *)
Theorem C48_verify_options : forall (w : world) (o : opt),
  exists y, verify_opts w o y /\ (forall y', verify_opts w o y' -> y' = y)
    /\ match verification_config_of w o, y with Ok c, Ok keys => verifies_with c keys | Err e, Err e' => e = e' | _, _ => False end.
Proof. exact verify_opts_iff. Qed.
Print Assumptions C48_verify_options.
(** canonicalize. *)
Theorem C48_canonicalize_options : forall (o : opt) (r : result canon_config verror), canonicalize_config o = r <-> canon_opts o r.
Proof. exact canon_opts_iff. Qed.
Print Assumptions C48_canonicalize_options.
(** Without an algorithm, verify accepts nothing. *)
Theorem C48_no_algorithm_accepts_nothing : forall (w : world) (o : opt) (stdin out : str) (se : sign_env) (ve : verify_env),
  op_mode o = MVerify -> op_algorithm o = None -> run w o stdin se ve <> Done (Ok out).
Proof. exact no_algorithm. Qed.
Print Assumptions C48_no_algorithm_accepts_nothing.
(** sign ignores the nonce option, and no algorithm but RSA can sign: not even the
    documented hmac-sha512, which is unknown. *)
Theorem C48_nonce_ignored_refuted : forall (w : world) (o : opt) (c : signing_config), signing_config_of w o = Ok c -> sc_nonce c = None.
Proof. exact nonce_ignored. Qed.
Print Assumptions C48_nonce_ignored_refuted.
Theorem C48_documented_algorithms_refuted : forall (w : world) (o : opt),
  (op_algorithm o = Some $"hmac-sha256" -> (forall c, signing_config_of w o <> Ok c) /\ forall c, verification_config_of w o <> Ok c)
  /\ (op_algorithm o = Some $"hmac-sha512" -> (forall c, signing_config_of w o <> Ok c) /\ (forall c, verification_config_of w o <> Ok c)
      /\ forall c, canonicalize_config o <> Ok c).
Proof. exact hmac_unsupported. Qed.
Print Assumptions C48_documented_algorithms_refuted.

(** A world with a toy signature scheme: every file contains the same key. *)
Definition toy_pem : str := $"-----BEGIN KEY-----" ++ [ch_lf] ++ $"a2V5" ++ [ch_lf] ++ $"-----END KEY-----" ++ [ch_lf].
Definition toy_world : world :=
  World (fun _ => Some toy_pem) (RingKeys Some Some Some) (Crypto (fun _ k _ m => k ++ $"!") (fun _ k m t => str_eqb t (k ++ $"!"))) (fun _ => Ok s_url) false.
Definition toy_opts (m : mode) : opt :=
  Opt m None (Some (Some (s2b "host ""@method"""))) (Some $"k1") (Some $"key") (Some $"key") None (Some $"rsa-v1_5-sha256")
    (Some 1618884475%Z) (Some 1618884535%Z) None.
Example C48_case :
  match signing_config_of toy_world (toy_opts MSign), verification_config_of toy_world (toy_opts MVerify) with
  | Ok c, Ok v => sc_components c = [CHeader $"host"; CDerived (dc_new AT_METHOD)] /\ List.length (vc_keys v $"k1") = 1%nat
  | _, _ => False
  end.
Proof. vm_compute. split; reflexivity. Qed.

Lemma toy_pair (os ov : opt) (f g : str) : op_algorithm os = Some $"rsa-v1_5-sha256" -> op_algorithm ov = Some $"rsa-v1_5-sha256" ->
  op_private_key os = Some f -> op_public_key ov = Some g -> key_pair toy_world os ov 0.
Proof.
  intros A B F G. exists $"rsa-v1_5-sha256", RsaSha256, toy_pem, (ring_signer (w_crypto toy_world) RsaSha256 $"key"), toy_pem,
    (ring_verifier (w_crypto toy_world) RsaSha256 $"key").
  split; [exact A|]. split; [exact B|]. split; [constructor|]. split; [now exists f|].
  assert (P : pem_parse toy_pem = Some ($"KEY", $"key")) by (vm_compute; reflexivity).
  split; [unfold sign_new_pkcs8_pem, pem_contents; now rewrite P|]. split; [now exists g|]. split.
  - assert (E : verify_new_pkcs1_pem (w_crypto toy_world) RsaSha256 toy_pem = Some (ring_verifier (w_crypto toy_world) RsaSha256 $"key"))
      by (unfold verify_new_pkcs1_pem, pem_contents; now rewrite P).
    rewrite <- E. apply public_fallback. unfold verify_new_spki_pem, pem_contents. now rewrite P.
  - intro m. reflexivity.
Qed.

(** C52: what the validator signed, the validator verifies. *)
Theorem C52_sign_then_verify : forall (w : world) (os ov : opt) (stdin t : str) (se se' : sign_env) (ve ve' : verify_env),
  op_mode os = MSign -> run w os stdin se ve = Done (Ok t) ->
  op_mode ov = MVerify -> op_in_file ov = None ->
  op_label os = None \/ op_label os = Some $"sig" ->
  op_key_id ov = op_key_id os -> key_pair w os ov (se_rnd se) ->
  sys_clock_ok (se_sys se) -> sys_clock_ok (ve_sys ve') ->
  (forall x, op_created os = Some x -> (x <= seconds (ve_sys ve'))%Z) ->
  (forall x, op_expires os = Some x -> (seconds (ve_sys ve') <= x)%Z) ->
  (forall cs q, given os (Some cs) -> In q cs -> ~ signature_header q) ->
  (forall r, run_request w os stdin r -> honest_digest r) ->
  run w ov t se' ve' = Done (Ok []).
Proof. exact pipe. Qed.
Print Assumptions C52_sign_then_verify.
Example C52_case : exists t,
  run toy_world (toy_opts MSign) (request_text m_req) m_senv m_venv = Done (Ok t)
  /\ key_pair toy_world (toy_opts MSign) (toy_opts MVerify) (se_rnd m_senv)
  /\ run toy_world (toy_opts MVerify) t m_senv m_venv = Done (Ok []).
Proof.
  eexists. split; [vm_compute; reflexivity|]. split.
  - now apply (toy_pair _ _ $"key" $"key").
  - vm_compute. reflexivity.
Qed.
(** With another label it does not. *)
Theorem C52_label_refuted : exists (w : world) (os ov : opt) (stdin t : str) (se : sign_env) (ve : verify_env),
  op_mode os = MSign /\ run w os stdin se ve = Done (Ok t) /\ op_mode ov = MVerify /\ op_in_file ov = None
  /\ op_label os = Some $"mine" /\ op_label ov = Some $"mine" /\ op_key_id ov = op_key_id os /\ key_pair w os ov (se_rnd se)
  /\ run w ov t se ve = Done (Err VSig).
Proof.
  set (o := fun m => Opt m None None (Some $"k1") (Some $"key") (Some $"key") (Some $"mine") (Some $"rsa-v1_5-sha256") None None None).
  eexists toy_world, (o MSign), (o MVerify), (request_text m_req), _, m_senv, m_venv.
  split; [reflexivity|]. split; [vm_compute; reflexivity|]. do 5 (split; [reflexivity|]). split.
  - now apply (toy_pair _ _ $"key" $"key").
  - vm_compute. reflexivity.
Qed.
Print Assumptions C52_label_refuted.
(** No other label works, whatever the keys and times: labels with leading white space
    aside (it is lost between the two commands), and if signatures are not empty. *)
Theorem C52_other_labels_never_verify : forall (w : world) (os ov : opt) (stdin t out l : str) (se se' : sign_env) (ve ve' : verify_env),
  op_mode os = MSign -> run w os stdin se ve = Done (Ok t) ->
  op_mode ov = MVerify -> op_in_file ov = None ->
  op_label os = Some l -> l <> $"sig" -> (forall x z, l = x :: z -> ~ blank x) ->
  sys_clock_ok (se_sys se) -> (forall s k m, cy_sign (w_crypto w) s k (se_rnd se) m <> []) ->
  run w ov t se' ve' <> Done (Ok out).
Proof. exact other_label_pipe. Qed.
Print Assumptions C52_other_labels_never_verify.
(** The white space: a label " sig" is accepted. *)
Definition label_opts (l : str) (m : mode) : opt := Opt m None None (Some $"k1") (Some $"key") (Some $"key") (Some l) (Some $"rsa-v1_5-sha256") None None None.
Definition label_pipe (l : str) : outcome (result str verror) :=
  match run toy_world (label_opts l MSign) (request_text m_req) m_senv m_venv with
  | Done (Ok t) => run toy_world (label_opts l MVerify) t m_senv m_venv
  | _ => Panic
  end.
Example C52_label_case : (forall s k m, cy_sign (w_crypto toy_world) s k (se_rnd m_senv) m <> [])
  /\ map label_pipe [$"sig"; $" sig"; $"sig2"; $""; $"sig=a"] = [Done (Ok []); Done (Ok []); Done (Err VSig); Done (Err VSig); Done (Err VSig)].
Proof. split; [|vm_compute; reflexivity]. intros s k m. cbn. now destruct k. Qed.

(** C71: the validator as a program, from input to output. *)
Theorem C71_canonicalize_is_specified : forall (w : world) (o : opt) (stdin : str) (se : sign_env) (ve : verify_env) (res : outcome (result str verror)),
  op_mode o = MCanonicalize -> (run w o stdin se ve = res <-> canon_run w o stdin res).
Proof. exact run_canonicalize. Qed.
Print Assumptions C71_canonicalize_is_specified.

Theorem C71_sign_is_specified : forall (w : world) (o : opt) (stdin : str) (se : sign_env) (ve : verify_env) (res : outcome (result str verror)),
  sys_clock_ok (se_sys se) -> op_mode o = MSign ->
  (run w o stdin se ve = res <-> sign_run w o stdin (seconds (se_sys se)) (se_rnd se) res).
Proof. exact run_sign. Qed.
Print Assumptions C71_sign_is_specified.

Theorem C71_verify_is_specified : forall (w : world) (o : opt) (stdin : str) (se : sign_env) (ve : verify_env) (res : outcome (result str verror)),
  sys_clock_ok (ve_sys ve) -> op_mode o = MVerify -> (run w o stdin se ve = res <-> verify_run w o stdin ve res).
Proof. exact run_verify. Qed.
Print Assumptions C71_verify_is_specified.

(** One request through the three modes. *)
Example C71_case : sys_clock_ok (se_sys m_senv) /\ sys_clock_ok (ve_sys m_venv)
  /\ (exists base, run toy_world (toy_opts MCanonicalize) (request_text m_req) m_senv m_venv = Done (Ok base))
  /\ exists t, run toy_world (toy_opts MSign) (request_text m_req) m_senv m_venv = Done (Ok t)
     /\ run toy_world (toy_opts MVerify) t m_senv m_venv = Done (Ok [])
     /\ run toy_world (toy_opts MVerify) (request_text m_req) m_senv m_venv = Done (Err VSig)
     /\ run toy_world (toy_opts MVerify) [] m_senv m_venv = Panic.
Proof.
  split; [vm_compute; split; congruence|]. split; [vm_compute; split; congruence|]. split; [eexists; vm_compute; reflexivity|].
  eexists. split; [vm_compute; reflexivity|]. split; [vm_compute; reflexivity|]. split; vm_compute; reflexivity.
Qed.

(** C72: a run that fails may have printed something, namely the beginning of a signed request
    with an unreadable header value; nothing else is ever printed by a failing run. *)
Theorem C72_failing_runs_print : forall (w : world) (o : opt) (stdin : str) (se : sign_env) (ve : verify_env) (out : str) (e : verror),
  sys_clock_ok (se_sys se) ->
  (main w o stdin se ve = Done (out, Some e) /\ out <> [] <->
   op_mode o = MSign /\ e = VIo /\ exists r c base sp, run_request w o stdin r /\ sign_opts w o (Ok c) /\ in_time c (seconds (se_sys se))
     /\ signature_base (mr_derive r) (sc_components c) (stamp c (seconds (se_sys se))) base
     /\ legal_value (signature_text c (se_rnd se) base)
     /\ inner_text (map component_item (sc_components c)) (stamp c (seconds (se_sys se))) sp
     /\ cut_text (signed_request r c (se_rnd se) sp base) out).
Proof. exact failing_output. Qed.
Print Assumptions C72_failing_runs_print.
(** A run that succeeds has printed its whole output (C71 says which). *)
Theorem C72_successful_runs_print : forall (w : world) (o : opt) (stdin : str) (se : sign_env) (ve : verify_env) (out : str),
  main w o stdin se ve = Done (out, None) <-> run w o stdin se ve = Done (Ok out).
Proof. exact successful_output. Qed.
Print Assumptions C72_successful_runs_print.
(** A header value with a byte above 127 cuts the output. *)
Definition cut_input : str :=
  $"GET /foo HTTP/1.1" ++ [ch_lf] ++ $"host: example.com" ++ [ch_lf] ++ $"x-name: " ++ [ascii_of_N 195; ascii_of_N 169] ++ [ch_lf] ++ $"date: today" ++ [ch_lf].
Theorem C72_failing_runs_print_nothing_refuted : exists (w : world) (o : opt) (stdin : str) (se : sign_env) (ve : verify_env),
  main w o stdin se ve = Done ($"GET /foo HTTP/1.1" ++ [ch_lf] ++ $"host: example.com" ++ [ch_lf], Some VIo).
Proof. exists toy_world, (toy_opts MSign), cut_input, m_senv, m_venv. vm_compute. reflexivity. Qed.
Print Assumptions C72_failing_runs_print_nothing_refuted.
