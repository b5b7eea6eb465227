(** Requests with more text at their end: C99. *)
From Verif Require Import SpecTail TailFacts PropOpt PropCut Samples MockFacts VerifyFacts RunFacts OptFacts SpecMock MoreVerify.

(** C99: what follows the text of a request with a body is read as more of its body, and changes nothing else. *)
Theorem C99_more_body : forall (w : world) (o : opt) (t x : str) (r : mock) (b : str), op_in_file o = None -> run_request w o t r -> mr_body r = Some b ->
  b <> [] \/ ends_whole t -> forall q, run_request w o (t ++ x) q <-> q = longer r x /\ loggable (w_trace w) (longer r x).
Proof. exact run_longer. Qed.
Print Assumptions C99_more_body.
(** An accepted request with a body, sent with more at its end, is accepted exactly if its Digest header, if any, is right for the longer body. *)
Theorem C99_verdict : forall (w : world) (o : opt) (t x : str) (r : mock) (b : str) (se : sign_env) (ve : verify_env), sys_clock_ok (ve_sys ve) ->
  op_mode o = MVerify -> op_in_file o = None -> run_request w o t r -> mr_body r = Some b -> b <> [] \/ ends_whole t ->
  run w o t se ve = Done (Ok []) ->
  (run w o (t ++ x) se ve = Done (Ok []) <-> loggable (w_trace w) (longer r x) /\ honest_digest (longer r x)).
Proof. exact longer_verdict. Qed.
Print Assumptions C99_verdict.
(** So with a Digest header nothing can be added, unless two bodies have the same SHA-256 or SHA-512. *)
Theorem C99_digest_protects : forall (w : world) (o : opt) (t x : str) (r : mock) (b dv : str) (se : sign_env) (ve : verify_env), sys_clock_ok (ve_sys ve) ->
  op_mode o = MVerify -> op_in_file o = None -> run_request w o t r -> mr_body r = Some b -> b <> [] \/ ends_whole t ->
  mr_derive r (CHeader $"digest") = Done (Some dv) -> run w o t se ve = Done (Ok []) -> run w o (t ++ x) se ve = Done (Ok []) ->
  sha256 (b ++ x) = sha256 b \/ sha512 (b ++ x) = sha512 b.
Proof. exact longer_collision. Qed.
Print Assumptions C99_digest_protects.
(** In particular for the output of sign and the body that was signed. *)
Theorem C99_signed_with_a_body : forall (w : world) (os ov : opt) (stdin out x b : str) (r : mock) (se se' : sign_env) (ve ve' : verify_env),
  op_mode os = MSign -> run w os stdin se ve = Done (Ok out) -> run_request w os stdin r -> mr_body r = Some b ->
  (forall c l, op_label os = Some (c :: l) -> ~ blank c) -> sys_clock_ok (se_sys se) -> sys_clock_ok (ve_sys ve') ->
  op_mode ov = MVerify -> op_in_file ov = None -> run w ov out se' ve' = Done (Ok []) ->
  (run w ov (out ++ x) se' ve' = Done (Ok []) <-> loggable (w_trace w) (longer r x) /\ honest_digest (longer r x)).
Proof. exact sign_longer. Qed.
Print Assumptions C99_signed_with_a_body.

(** What follows the text of a request without a body is read as more header lines, of which the last counts for each header, and
    perhaps a body; method, target and version stay. *)
Theorem C99_more_lines : forall (w : world) (o : opt) (t x : str) (r : mock), op_in_file o = None -> run_request w o t r -> mr_body r = None -> ends_whole t ->
  forall q, run_request w o (t ++ x) q ->
  exists hs, header_block x hs (mr_body q) /\ more_lines r q hs /\ target_url (w_url w) (mr_path r) (mr_headers q) (mr_url q).
Proof. exact run_more. Qed.
Print Assumptions C99_more_lines.
(** All header lines can be added in this way; only a line for Host can change the URL. *)
Theorem C99_lines_can_be_added : forall (w : world) (o : opt) (t x : str) (r : mock) (hs : list (str * str)) (body : option str), op_in_file o = None -> run_request w o t r ->
  mr_body r = None -> ends_whole t -> header_block x hs body -> ~ In $"host" (map fst hs) ->
  (w_trace w = true -> forall b, body = Some b -> utf8_text b) ->
  exists q, run_request w o (t ++ x) q /\ mr_body q = body /\ mr_url q = mr_url r /\ more_lines r q hs.
Proof. exact run_add. Qed.
Print Assumptions C99_lines_can_be_added.
(** The output of sign for a request without a body, accepted with more at its end: the request that sign wrote with more header
    lines, and perhaps a body that a Digest header, if there is one, is right for. *)
Theorem C99_signed_without_a_body : forall (w : world) (os ov : opt) (stdin out x : str) (r q : mock) (se se' : sign_env) (ve ve' : verify_env),
  op_mode os = MSign -> run w os stdin se ve = Done (Ok out) -> run_request w os stdin r -> mr_body r = None ->
  (forall c l, op_label os = Some (c :: l) -> ~ blank c) -> sys_clock_ok (se_sys se) -> sys_clock_ok (ve_sys ve') ->
  op_mode ov = MVerify -> op_in_file ov = None -> run_request w ov out q -> run w ov (out ++ x) se' ve' = Done (Ok []) ->
  exists q' hs, run_request w ov (out ++ x) q' /\ header_block x hs (mr_body q') /\ more_lines q q' hs
    /\ target_url (w_url w) (mr_path q) (mr_headers q') (mr_url q') /\ honest_digest q'.
Proof. exact sign_more. Qed.
Print Assumptions C99_signed_without_a_body.

(** Without a Digest header, more body is accepted, although Content-Length says otherwise. *)
Theorem C99_more_body_is_rejected_refuted : exists (w : world) (os ov : opt) (stdin out : str) (r : mock) (se : sign_env) (ve : verify_env),
  op_mode os = MSign /\ run_request w os stdin r /\ mr_body r = Some $"hello" /\ first_value (mr_headers r) $"content-length" = Some $"5"
  /\ run w os stdin se ve = Done (Ok out) /\ run w ov out se ve = Done (Ok []) /\ run w ov (out ++ $" and goodbye") se ve = Done (Ok []).
Proof.
  set (out := match main toy_world (toy_opts MSign) (request_text cut_req) m_senv m_venv with Done (t, _) => t | Panic => [] end).
  exists toy_world, (toy_opts MSign), (toy_opts MVerify), (request_text cut_req), out, cut_req, m_senv, m_venv.
  split; [reflexivity|]. split; [exists (request_text cut_req); split; [reflexivity|]; apply read_accepts; vm_compute; reflexivity|].
  split; [reflexivity|]. split; [reflexivity|]. split; [vm_compute; reflexivity|]. split; vm_compute; reflexivity.
Qed.
Print Assumptions C99_more_body_is_rejected_refuted.
(** A header that is not covered can be replaced by a line at the end, Host among them; and a body can be added. *)
Definition bare_req : mock := MockReq HTTP_11 $"GET" s_url $"/foo" [($"host", $"example.com")] None.
Definition method_opts (m : mode) : opt :=
  Opt m None (Some (Some (s2b """@method"""))) (Some $"k1") (Some $"key") (Some $"key") None (Some $"rsa-v1_5-sha256")
    (Some 1618884475%Z) (Some 1618884535%Z) None.
Definition added : str := $"Host: elsewhere.com" ++ [ch_lf; ch_lf] ++ $"more".
Theorem C99_lines_are_rejected_refuted : exists (w : world) (os ov : opt) (stdin out : str) (r q : mock) (se : sign_env) (ve : verify_env),
  op_mode os = MSign /\ run_request w os stdin r /\ first_value (mr_headers r) $"host" = Some $"example.com" /\ mr_body r = None
  /\ run w os stdin se ve = Done (Ok out) /\ run w ov (out ++ added) se ve = Done (Ok []) /\ run_request w ov (out ++ added) q
  /\ first_value (mr_headers q) $"host" = Some $"elsewhere.com" /\ mr_body q = Some $"more".
Proof.
  set (out := match main toy_world (method_opts MSign) (request_text bare_req) m_senv m_venv with Done (t, _) => t | Panic => [] end).
  set (q := match from_reader false (w_url toy_world) (out ++ added) with Done (Some q) => q | _ => bare_req end).
  exists toy_world, (method_opts MSign), (method_opts MVerify), (request_text bare_req), out, bare_req, q, m_senv, m_venv.
  split; [reflexivity|]. split; [exists (request_text bare_req); split; [reflexivity|]; apply read_accepts; vm_compute; reflexivity|].
  split; [reflexivity|]. split; [reflexivity|]. split; [vm_compute; reflexivity|]. split; [vm_compute; reflexivity|].
  split; [exists (out ++ added); split; [reflexivity|]; apply read_accepts; vm_compute; reflexivity|]. split; vm_compute; reflexivity.
Qed.
Print Assumptions C99_lines_are_rejected_refuted.

(** But not a component that is covered: lines that name no signature header leave its value, or the keys accept a signature for
    another text than the one that was signed. *)
Theorem C99_covered_is_protected : forall (w : world) (os ov : opt) (stdin out x : str) (r q : mock) (cs : list component) (hs : list (str * str)) (se se' : sign_env) (ve ve' : verify_env),
  op_mode os = MSign -> run w os stdin se ve = Done (Ok out) -> run_request w os stdin r -> mr_body r = None -> given os (Some cs) ->
  (forall c l, op_label os = Some (c :: l) -> ~ blank c) -> (forall l, op_label os = Some l -> ~ In "="%char l) ->
  sys_clock_ok (se_sys se) -> sys_clock_ok (ve_sys ve') -> op_mode ov = MVerify -> op_in_file ov = None ->
  (exists q0, run_request w ov out q0) -> run_request w ov (out ++ x) q -> header_block x hs (mr_body q) ->
  ~ In $"signature" (map fst hs) -> ~ In $"signature-input" (map fst hs) ->
  derived_on_one_line cs r -> derived_on_one_line cs q -> run w ov (out ++ x) se' ve' = Done (Ok []) ->
  (forall p v, In p cs -> mr_derive r p = Done (Some v) -> mr_derive q p = Done (Some v))
  \/ passed_off w os ov (se_rnd se) (seconds (se_sys se)) r q.
Proof. exact more_covered. Qed.
Print Assumptions C99_covered_is_protected.

(** C100: whatever text reaches verify with the signature that sign made, if it is accepted then every component that sign was told to
    cover has the value it had in the request that was signed, or the keys accept a signature for another text than the one that was signed. *)
Theorem C100_what_was_signed_arrives : forall (w : world) (os ov : opt) (stdin out t : str) (r q0 q : mock) (cs : list component) (se se' : sign_env) (ve ve' : verify_env),
  op_mode os = MSign -> run w os stdin se ve = Done (Ok out) -> run_request w os stdin r -> given os (Some cs) ->
  (forall c l, op_label os = Some (c :: l) -> ~ blank c) -> (forall l, op_label os = Some l -> ~ In "="%char l) ->
  sys_clock_ok (se_sys se) -> sys_clock_ok (ve_sys ve') -> op_mode ov = MVerify -> op_in_file ov = None ->
  run_request w ov out q0 -> run_request w ov t q ->
  first_value (mr_headers q) $"signature" = first_value (mr_headers q0) $"signature" ->
  first_value (mr_headers q) $"signature-input" = first_value (mr_headers q0) $"signature-input" ->
  derived_on_one_line cs r -> derived_on_one_line cs q -> run w ov t se' ve' = Done (Ok []) ->
  (forall p v, In p cs -> mr_derive r p = Done (Some v) -> mr_derive q p = Done (Some v))
  \/ passed_off w os ov (se_rnd se) (seconds (se_sys se)) r q.
Proof. exact run_tamper. Qed.
Print Assumptions C100_what_was_signed_arrives.
(** If it covers a right Digest header, the body arrives too, or two bodies have the same SHA-256 or SHA-512. *)
Theorem C100_the_body_arrives : forall (w : world) (os ov : opt) (stdin out t : str) (r q0 q : mock) (cs : list component) (b dv : str) (se se' : sign_env) (ve ve' : verify_env),
  op_mode os = MSign -> run w os stdin se ve = Done (Ok out) -> run_request w os stdin r -> given os (Some cs) ->
  (forall c l, op_label os = Some (c :: l) -> ~ blank c) -> (forall l, op_label os = Some l -> ~ In "="%char l) ->
  sys_clock_ok (se_sys se) -> sys_clock_ok (ve_sys ve') -> op_mode ov = MVerify -> op_in_file ov = None ->
  run_request w ov out q0 -> run_request w ov t q ->
  first_value (mr_headers q) $"signature" = first_value (mr_headers q0) $"signature" ->
  first_value (mr_headers q) $"signature-input" = first_value (mr_headers q0) $"signature-input" ->
  derived_on_one_line cs r -> derived_on_one_line cs q -> In (CHeader $"digest") cs ->
  mr_body r = Some b -> mr_derive r (CHeader $"digest") = Done (Some dv) -> honest_digest r -> run w ov t se' ve' = Done (Ok []) ->
  (exists b', mr_body q = Some b' /\ (b' = b \/ b' <> b /\ (sha256 b' = sha256 b \/ sha512 b' = sha512 b)))
  \/ passed_off w os ov (se_rnd se) (seconds (se_sys se)) r q.
Proof. exact run_tamper_body. Qed.
Print Assumptions C100_the_body_arrives.
(** Keys that tell texts apart: the signature of a text is the text, so that nothing is passed off. *)
Definition plain_world : world :=
  World (fun _ => Some toy_pem) (RingKeys Some Some Some) (Crypto (fun _ _ _ m => m) (fun _ _ m t => str_eqb t m)) (fun _ => Ok s_url) false.
Definition digest_opts (m : mode) : opt :=
  Opt m None (Some (Some (s2b "host digest ""@method"""))) (Some $"k1") (Some $"key") (Some $"key") None (Some $"rsa-v1_5-sha256")
    (Some 1618884475%Z) (Some 1618884535%Z) None.
Example C100_case :
  (exists cs, given (digest_opts MSign) (Some cs) /\ In (CHeader $"host") cs /\ In (CHeader $"digest") cs /\ derived_on_one_line cs whole_req)
  /\ exists out, run plain_world (digest_opts MSign) (request_text whole_req) m_senv m_venv = Done (Ok out)
     /\ run plain_world (digest_opts MVerify) out m_senv m_venv = Done (Ok [])
     /\ run plain_world (digest_opts MVerify) ($"PUT" ++ skipn 4 out) m_senv m_venv = Done (Err VSig)
     /\ run plain_world (digest_opts MVerify) (out ++ $"!") m_senv m_venv = Done (Err VSig)
     /\ run plain_world (digest_opts MVerify) ($"POST /bar" ++ skipn 9 out) m_senv m_venv = Done (Ok []).
Proof.
  split.
  - exists [CHeader $"host"; CHeader $"digest"; CDerived (dc_new AT_METHOD)]. split; [apply given_iff; vm_compute; reflexivity|].
    split; [now left|]. split; [right; now left|]. intros d v [E|[E|[E|[]]]]; try discriminate. injection E as <-.
    intro H. assert (X : mr_derive whole_req (CDerived (dc_new AT_METHOD)) = Done (Some $"POST")) by (vm_compute; reflexivity).
    rewrite X in H. injection H as <-. intro I. cbn in I. intuition discriminate.
  - exists (match main plain_world (digest_opts MSign) (request_text whole_req) m_senv m_venv with Done (t, _) => t | Panic => [] end).
    repeat split; vm_compute; reflexivity.
Qed.

(** With a right Digest header more body is rejected; so is a line for the covered Host header after a request without a body, and lines
    for other headers are read and accepted. *)
Example C99_case :
  (exists out, run toy_world (toy_opts MSign) (request_text whole_req) m_senv m_venv = Done (Ok out)
     /\ run toy_world (toy_opts MVerify) out m_senv m_venv = Done (Ok [])
     /\ run toy_world (toy_opts MVerify) (out ++ $"!") m_senv m_venv = Done (Err VSig))
  /\ (exists out, run plain_world (toy_opts MSign) (request_text bare_req) m_senv m_venv = Done (Ok out) /\ ends_whole out
     /\ run plain_world (toy_opts MVerify) (out ++ added) m_senv m_venv = Done (Err VSig)
     /\ run plain_world (toy_opts MVerify) (out ++ $"x-note: a" ++ [ch_lf]) m_senv m_venv = Done (Ok []))
  /\ header_block ($"x-note: a" ++ [ch_lf]) [($"x-note", $"a")] None.
Proof.
  split; [|split].
  - exists (match main toy_world (toy_opts MSign) (request_text whole_req) m_senv m_venv with Done (t, _) => t | Panic => [] end).
    repeat split; vm_compute; reflexivity.
  - set (out := match main plain_world (toy_opts MSign) (request_text bare_req) m_senv m_venv with Done (t, _) => t | Panic => [] end).
    exists out. split; [vm_compute; reflexivity|]. split; [exists (firstn (List.length out - 1)%nat out); vm_compute; reflexivity|]. split; vm_compute; reflexivity.
  - apply (block_line _ ($"x-note: a" ++ [ch_lf]) []); [apply first_line_iff; reflexivity|apply utf8_valid_iff; reflexivity| |constructor].
    apply header_of_iff. exists $"x-note", ($" a" ++ [ch_lf]). repeat split; vm_compute; reflexivity.
Qed.
