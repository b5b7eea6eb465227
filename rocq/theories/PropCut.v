(** Signed requests cut short: C97. *)
From Verif Require Import SpecCut CutFacts PropOpt Samples MockFacts VerifyFacts RunFacts SpecMock MoreVerify.

(** C97: whatever part of the output of sign is lost at its end, if the rest is accepted then it still has the method, the target
    and all header fields of the request that was signed, and only its body may be shorter; a Digest header is right for that body. *)
Theorem C97_cut_short : forall (w : world) (os ov : opt) (stdin out s x : str) (r : mock) (se se' : sign_env) (ve ve' : verify_env),
  op_mode os = MSign -> run w os stdin se ve = Done (Ok out) -> run_request w os stdin r -> first_value (mr_headers r) $"signature" = None ->
  (forall c l, op_label os = Some (c :: l) -> ~ blank c) -> sys_clock_ok (se_sys se) -> sys_clock_ok (ve_sys ve') ->
  op_mode ov = MVerify -> op_in_file ov = None -> out = s ++ x -> run w ov s se' ve' = Done (Ok []) ->
  exists q, run_request w ov s q /\ cut_request r q /\ honest_digest q.
Proof. exact sign_cut. Qed.
Print Assumptions C97_cut_short.
(** So if the request had a right Digest header, its body is accepted in part only if two bodies have the same SHA-256 or SHA-512. *)
Theorem C97_digest_protects : forall (w : world) (os ov : opt) (stdin out s x : str) (r : mock) (dv : str) (se se' : sign_env) (ve ve' : verify_env),
  op_mode os = MSign -> run w os stdin se ve = Done (Ok out) -> run_request w os stdin r -> first_value (mr_headers r) $"signature" = None ->
  mr_derive r (CHeader $"digest") = Done (Some dv) -> honest_digest r ->
  (forall c l, op_label os = Some (c :: l) -> ~ blank c) -> sys_clock_ok (se_sys se) -> sys_clock_ok (ve_sys ve') ->
  op_mode ov = MVerify -> op_in_file ov = None -> out = s ++ x -> run w ov s se' ve' = Done (Ok []) ->
  exists q b b', run_request w ov s q /\ mr_body r = Some b /\ mr_body q = Some b' /\ (sha256 b' = sha256 b \/ sha512 b' = sha512 b).
Proof. exact sign_cut_digest. Qed.
Print Assumptions C97_digest_protects.
(** In particular if the output was cut because standard output failed (C96), at any byte. *)
Theorem C97_failed_write : forall (w : world) (files : str -> option source) (os ov : opt) (stdin out : str) (r : mock) (room : option nat) (se se' : sign_env) (ve ve' : verify_env),
  (forall f, op_in_file os = Some f -> files f = option_map whole (w_read w f)) ->
  op_mode os = MSign -> run w os stdin se ve = Done (Ok out) -> run_request w os stdin r -> first_value (mr_headers r) $"signature" = None ->
  (forall c l, op_label os = Some (c :: l) -> ~ blank c) -> sys_clock_ok (se_sys se) -> sys_clock_ok (ve_sys ve') ->
  op_mode ov = MVerify -> op_in_file ov = None ->
  let written := sk_dev (snd (main_io w files os (whole stdin) (fresh room) se ve)) in
  run w ov written se' ve' = Done (Ok []) ->
  exists q, run_request w ov written q /\ cut_request r q /\ honest_digest q.
Proof. exact sign_failed_write. Qed.
Print Assumptions C97_failed_write.

(** Without a Digest header, a request that lost its whole body is accepted, although its Content-Length says otherwise. *)
Definition cut_req : mock :=
  MockReq HTTP_11 $"POST" s_url $"/foo" [($"host", $"example.com"); ($"content-length", $"5")] (Some $"hello").
Theorem C97_cut_is_rejected_refuted : exists (w : world) (os ov : opt) (stdin s : str) (r : mock) (se : sign_env) (ve : verify_env),
  op_mode os = MSign /\ run_request w os stdin r /\ first_value (mr_headers r) $"signature" = None /\ first_value (mr_headers r) $"content-length" = Some $"5"
  /\ run w os stdin se ve = Done (Ok (s ++ [ch_lf] ++ $"hello")) /\ run w ov s se ve = Done (Ok []).
Proof.
  set (out := match main toy_world (toy_opts MSign) (request_text cut_req) m_senv m_venv with Done (t, _) => t | Panic => [] end).
  exists toy_world, (toy_opts MSign), (toy_opts MVerify), (request_text cut_req), (firstn (List.length out - 6)%nat out), cut_req, m_senv, m_venv.
  split; [reflexivity|]. split; [exists (request_text cut_req); split; [reflexivity|]; apply read_accepts; vm_compute; reflexivity|].
  split; [reflexivity|]. split; [reflexivity|]. split; vm_compute; reflexivity.
Qed.
Print Assumptions C97_cut_is_rejected_refuted.

(** If the request had signature headers before, they stand where they stood, and header fields after them can be lost. *)
Definition resigned_req : mock :=
  MockReq HTTP_11 $"GET" s_url $"/foo" [($"host", $"example.com"); ($"signature-input", $"a"); ($"signature", $"b"); ($"x-more", $"important")] None.
Theorem C97_signed_before_refuted : exists (w : world) (os ov : opt) (stdin s : str) (r q : mock) (se : sign_env) (ve : verify_env),
  op_mode os = MSign /\ run_request w os stdin r /\ run w os stdin se ve = Done (Ok (s ++ $"x-more: important" ++ [ch_lf]))
  /\ run w ov s se ve = Done (Ok []) /\ run_request w ov s q
  /\ first_value (mr_headers r) $"x-more" = Some $"important" /\ first_value (mr_headers q) $"x-more" = None.
Proof.
  set (out := match main toy_world (toy_opts MSign) (request_text resigned_req) m_senv m_venv with Done (t, _) => t | Panic => [] end).
  set (s := firstn (List.length out - 18)%nat out).
  set (q := match from_reader false (w_url toy_world) s with Done (Some q) => q | _ => resigned_req end).
  exists toy_world, (toy_opts MSign), (toy_opts MVerify), (request_text resigned_req), s, resigned_req, q, m_senv, m_venv.
  split; [reflexivity|]. split; [exists (request_text resigned_req); split; [reflexivity|]; apply read_accepts; vm_compute; reflexivity|].
  split; [vm_compute; reflexivity|]. split; [vm_compute; reflexivity|]. split; [exists s; split; [reflexivity|]; apply read_accepts; vm_compute; reflexivity|].
  split; vm_compute; reflexivity.
Qed.
Print Assumptions C97_signed_before_refuted.

(** A request with a Digest header: signed, it is accepted whole, and not with a part of its body and not with a header line cut (if the
    cut line has no colon left, the validator panics: C49). *)
Definition whole_req : mock :=
  MockReq HTTP_11 $"POST" s_url $"/foo" [($"host", $"example.com"); (h_digest, m_digest)] (Some $"hello").
Example C97_case : run_request toy_world (toy_opts MSign) (request_text whole_req) whole_req /\ honest_digest whole_req
  /\ first_value (mr_headers whole_req) $"signature" = None /\ mr_derive whole_req (CHeader $"digest") = Done (Some m_digest)
  /\ exists out, run toy_world (toy_opts MSign) (request_text whole_req) m_senv m_venv = Done (Ok out)
     /\ run toy_world (toy_opts MVerify) out m_senv m_venv = Done (Ok [])
     /\ run toy_world (toy_opts MVerify) (firstn (List.length out - 3)%nat out) m_senv m_venv = Done (Err VSig)
     /\ run toy_world (toy_opts MVerify) (firstn (List.length out - 15)%nat out) m_senv m_venv = Done (Err VSig)
     /\ run toy_world (toy_opts MVerify) (firstn (List.length out - 30)%nat out) m_senv m_venv = Panic.
Proof.
  split; [exists (request_text whole_req); split; [reflexivity|]; apply read_accepts; vm_compute; reflexivity|].
  split. { intros dv D. change (Done (Some m_digest) = Done (Some dv)) in D. injection D as <-. exists sha256_digest, (dg_digest sha256_digest $"hello").
           split; [|reflexivity]. assert (E : digest_header $"hello" = m_digest) by (vm_compute; reflexivity).
           rewrite <- E. apply digest_header_first. }
  split; [reflexivity|]. split; [reflexivity|].
  exists (match main toy_world (toy_opts MSign) (request_text whole_req) m_senv m_venv with Done (t, _) => t | Panic => [] end).
  repeat split; vm_compute; reflexivity.
Qed.
