(** The validator with RSA keys in files: C95. *)
From Verif Require Import SpecRsaRun SpecManual RsaRunFacts Samples WitnessRsaKey WitnessRsaRun.
Local Open Scope N_scope.

(** C95: with a private key and its public key in two PEM files, what the sign command prints the verify command accepts. *)
Theorem C95_sign_then_verify : forall (files ec : str -> option str) (ecdsa : crypto) (parse : url_parser) (trace : bool)
    (os ov : opt) (a : str) (t : key_type) (f g stext vtext : str) (n e d p q dp dq qinv : N) (stdin out : str) (se se' : sign_env) (ve ve' : verify_env),
  let w := rsa_world files ec ecdsa parse trace in
  op_algorithm os = Some a -> op_algorithm ov = Some a -> loads a t ->
  op_private_key os = Some f -> files f = Some stext -> private_pem stext n e d p q dp dq qinv -> rsa_exponents e p q dp dq ->
  op_public_key ov = Some g -> files g = Some vtext -> public_pem t vtext n e ->
  op_mode os = MSign -> run w os stdin se ve = Done (Ok out) -> op_mode ov = MVerify -> op_in_file ov = None ->
  op_label os = None \/ op_label os = Some $"sig" -> op_key_id ov = op_key_id os ->
  sys_clock_ok (se_sys se) -> sys_clock_ok (ve_sys ve') ->
  (forall x, op_created os = Some x -> (x <= seconds (ve_sys ve'))%Z) ->
  (forall x, op_expires os = Some x -> (seconds (ve_sys ve') <= x)%Z) ->
  (forall cs q, given os (Some cs) -> In q cs -> ~ signature_header q) ->
  (forall r, run_request w os stdin r -> honest_digest r) ->
  run w ov out se' ve' = Done (Ok []).
Proof. exact rsa_pipe. Qed.
Print Assumptions C95_sign_then_verify.
(** In particular the two documented commands, for any header fields the request has. *)
Theorem C95_commands : forall (files ec : str -> option str) (ecdsa : crypto) (parse : url_parser) (trace : bool)
    (a k hs f g stext vtext stdin : str) (t : key_type) (n e d p q dp dq qinv : N) (r : mock) (fields : list (str * str)) (se : sign_env) (ve : verify_env),
  let w := rsa_world files ec ecdsa parse trace in
  loads a t -> separate k -> separate hs -> separate f -> separate g -> simple_text k ->
  files f = Some stext -> private_pem stext n e d p q dp dq qinv -> ring_private n e d p q dp dq qinv -> rsa_exponents e p q dp dq ->
  files g = Some vtext -> public_pem t vtext n e ->
  piped w stdin r -> shown r -> named_fields r hs fields -> honest_digest r ->
  (forall x, In x fields -> fst x <> $"signature" /\ fst x <> $"signature-input") -> sys_clock_ok (se_sys se) ->
  exists out, program w (sign_args hs a k f) stdin se ve = EndRun (Done (Ok out))
    /\ forall se' ve', sys_clock_ok (ve_sys ve') -> program w (verify_args a k g) out se' ve' = EndRun (Done (Ok [])).
Proof. exact rsa_commands. Qed.
Print Assumptions C95_commands.
(** The verify command succeeds exactly on the requests that carry a signature of RFC 8017 under the numbers in the file over
    their signature base, in time, with a right Digest header if they have one. *)
Theorem C95_verify : forall (files ec : str -> option str) (ecdsa : crypto) (parse : url_parser) (trace : bool)
    (ov : opt) (a : str) (t : key_type) (g vtext : str) (n e : N) (stdin : str) (se : sign_env) (ve : verify_env),
  let w := rsa_world files ec ecdsa parse trace in
  op_mode ov = MVerify -> op_algorithm ov = Some a -> loads a t -> op_public_key ov = Some g -> files g = Some vtext -> public_pem t vtext n e ->
  sys_clock_ok (ve_sys ve) ->
  (run w ov stdin se ve = Done (Ok []) <->
   ring_takes n e /\ exists r cc base tag, run_request w ov stdin r
     /\ signature_headers mr_server r cc (b64_bits tag) (or_else [] (op_key_id ov)) /\ SpecVerify.times_ok ve cc
     /\ signature_base (mr_derive r) (cc_components cc) (cc_params cc) base /\ rsa_tag t n e base tag /\ honest_digest r).
Proof. exact rsa_verified. Qed.
Print Assumptions C95_verify.
(** The sign command refuses exactly the PEM files that do not hold a PKCS#8 key as ring wants it. *)
Theorem C95_sign_refused : forall (files ec : str -> option str) (ecdsa : crypto) (parse : url_parser) (trace : bool)
    (os : opt) (a : str) (t : key_type) (f stext label b : str) (stdin : str) (r : mock) (se : sign_env) (ve : verify_env),
  let w := rsa_world files ec ecdsa parse trace in
  op_mode os = MSign -> op_algorithm os = Some a -> loads a t -> op_private_key os = Some f -> files f = Some stext -> pem_file stext label b ->
  run_request w os stdin r -> sys_clock_ok (se_sys se) ->
  (run w os stdin se ve = Done (Err VKey) <->
   ~ (short_file b /\ exists key n e d p q dp dq qinv, rsa_pkcs8 key b /\ rsa_private_key n e d p q dp dq qinv key /\ ring_private n e d p q dp dq qinv)).
Proof. exact rsa_refused. Qed.
Print Assumptions C95_sign_refused.

(** Two files and a request. *)
Example C95_case : some_files $"private.pem" = Some some_private_text /\ some_files $"public.pem" = Some some_public_text
  /\ private_pem some_private_text some_n 65537 some_d some_p some_q some_dp some_dq some_qinv
  /\ ring_private some_n 65537 some_d some_p some_q some_dp some_dq some_qinv /\ rsa_exponents 65537 some_p some_q some_dp some_dq
  /\ (forall t, public_pem t some_public_text some_n 65537)
  /\ exists r, piped run_world run_stdin r /\ shown r /\ named_fields r $"host date" [($"host", $"example.com"); ($"date", $"today")] /\ honest_digest r.
Proof. exact (conj eq_refl (conj eq_refl (conj some_private_pem (conj some_ok (conj some_exponents (conj some_public_pem run_case)))))). Qed.
(** So these commands work, in the model, with a key of 2048 bits. *)
Example C95_run : exists out,
  program run_world (sign_args $"host date" $"rsa-pss-sha512" $"k" $"private.pem") run_stdin m_senv m_venv = EndRun (Done (Ok out))
  /\ forall se' ve', sys_clock_ok (ve_sys ve') -> program run_world (verify_args $"rsa-pss-sha512" $"k" $"public.pem") out se' ve' = EndRun (Done (Ok [])).
Proof.
  destruct run_case as (r & P & S & N & H).
  apply (C95_commands some_files (fun _ => None) _ _ false $"rsa-pss-sha512" $"k" $"host date" $"private.pem" $"public.pem" some_private_text some_public_text run_stdin
           RsaPssSha512 some_n 65537 some_d some_p some_q some_dp some_dq some_qinv r [($"host", $"example.com"); ($"date", $"today")] m_senv m_venv);
    [constructor|right; discriminate|right; discriminate|right; discriminate|right; discriminate| |reflexivity|exact some_private_pem|exact some_ok|exact some_exponents
    |reflexivity|exact (some_public_pem RsaPssSha512)|exact P|exact S|exact N|exact H| |vm_compute; split; congruence].
  - repeat (constructor; [split; [vm_compute; split; congruence|split; discriminate]|]). constructor.
  - intros x [<-|[<-|[]]]; split; discriminate.
Qed.
