(** The validator on streams that fail: C96.  [room]: how many bytes standard output takes before it fails. *)
From Verif Require Import SpecIo IoFacts PropOpt Samples MockFacts.

(** C96: reading.  If reading the request fails, wherever, the program panics and prints nothing: no part of a request is ever
    signed or accepted. *)
Theorem C96_failed_read : forall (w : world) (files : str -> option source) (o : opt) (stdin : source) (room : option nat) (se : sign_env) (ve : verify_env),
  match op_in_file o with Some f => exists s, files f = Some (broken s) | None => exists s, stdin = broken s end ->
  fst (main_io w files o stdin (fresh room) se ve) = Panic /\ sk_dev (snd (main_io w files o stdin (fresh room) se ve)) = [].
Proof. intros w files o stdin room se ve. exact (main_broken w files o se ve room stdin). Qed.
Print Assumptions C96_failed_read.
(** Inputs that can be read are read as before (C38, C49, C71), also if standard output fails: *)
Theorem C96_panics : forall (w : world) (files : str -> option source) (o : opt) (stdin : str) (room : option nat) (se : sign_env) (ve : verify_env),
  (forall f, op_in_file o = Some f -> files f = option_map whole (w_read w f)) -> main w o stdin se ve = Panic ->
  fst (main_io w files o (whole stdin) (fresh room) se ve) = Panic /\ sk_dev (snd (main_io w files o (whole stdin) (fresh room) se ve)) = [].
Proof. intros w files o stdin room se ve A P. pose proof (main_goes w files o se ve room A stdin) as H. rewrite P in H. exact H. Qed.
Print Assumptions C96_panics.

(** Writing.  Standard output receives what it has room for of the output, neither more nor less. *)
Theorem C96_output : forall (w : world) (files : str -> option source) (o : opt) (stdin : str) (room : option nat) (se : sign_env) (ve : verify_env) (out : str) (e : option verror),
  (forall f, op_in_file o = Some f -> files f = option_map whole (w_read w f)) -> main w o stdin se ve = Done (out, e) ->
  sk_dev (snd (main_io w files o (whole stdin) (fresh room) se ve)) = kept room out.
Proof. intros w files o stdin room se ve out e A. exact (io_output w files o se ve room A stdin out e). Qed.
Print Assumptions C96_output.
(** With room for the output, the program ends as it should. *)
Theorem C96_room_enough : forall (w : world) (files : str -> option source) (o : opt) (stdin : str) (room : option nat) (se : sign_env) (ve : verify_env) (out : str) (e : option verror),
  (forall f, op_in_file o = Some f -> files f = option_map whole (w_read w f)) -> main w o stdin se ve = Done (out, e) -> fits room out ->
  fst (main_io w files o (whole stdin) (fresh room) se ve) = Done e.
Proof. intros w files o stdin room se ve out e A. exact (io_enough w files o se ve room A stdin out e). Qed.
Print Assumptions C96_room_enough.
(** Otherwise it may end with an I/O error instead, and with nothing else. *)
Theorem C96_errors : forall (w : world) (files : str -> option source) (o : opt) (stdin : str) (room : option nat) (se : sign_env) (ve : verify_env) (out : str) (e : option verror),
  (forall f, op_in_file o = Some f -> files f = option_map whole (w_read w f)) -> main w o stdin se ve = Done (out, e) ->
  fst (main_io w files o (whole stdin) (fresh room) se ve) = Done e
  \/ fst (main_io w files o (whole stdin) (fresh room) se ve) = Done (Some VIo) /\ ~ fits room out.
Proof. intros w files o stdin room se ve out e A. exact (io_either w files o se ve room A stdin out e). Qed.
Print Assumptions C96_errors.
(** If it reports success, at most the end of the last line is missing. *)
Theorem C96_success : forall (w : world) (files : str -> option source) (o : opt) (stdin : str) (room : option nat) (se : sign_env) (ve : verify_env) (out : str) (e : option verror),
  (forall f, op_in_file o = Some f -> files f = option_map whole (w_read w f)) -> main w o stdin se ve = Done (out, e) ->
  fst (main_io w files o (whole stdin) (fresh room) se ve) = Done None ->
  e = None /\ ~ In ch_lf (lost room out) /\ (N.of_nat (List.length (lost room out)) <= 1024)%N.
Proof. intros w files o stdin room se ve out e A. exact (io_success w files o se ve room A stdin out e). Qed.
Print Assumptions C96_success.
(** So for an output of whole lines, as that of sign is for requests without a body, it reports success just when all was written. *)
Theorem C96_whole_lines : forall (w : world) (files : str -> option source) (o : opt) (stdin : str) (room : option nat) (se : sign_env) (ve : verify_env) (out : str) (e : option verror),
  (forall f, op_in_file o = Some f -> files f = option_map whole (w_read w f)) -> main w o stdin se ve = Done (out, e) ->
  forall x, out = x ++ [ch_lf] ->
  (fst (main_io w files o (whole stdin) (fresh room) se ve) = Done None <-> e = None /\ fits room out).
Proof. intros w files o stdin room se ve out e A. exact (io_lines w files o se ve room A stdin out e). Qed.
Print Assumptions C96_whole_lines.
(** But not for others: here the signed request loses the end of its body, the program reports success, and what was written
    is accepted. *)
Theorem C96_success_is_complete_refuted : exists (w : world) (files : str -> option source) (o ov : opt) (stdin : str) (room : option nat) (se : sign_env) (ve : verify_env) (out : str),
  op_in_file o = None /\ run w o stdin se ve = Done (Ok (out ++ $"llo"))
  /\ fst (main_io w files o (whole stdin) (fresh room) se ve) = Done None
  /\ sk_dev (snd (main_io w files o (whole stdin) (fresh room) se ve)) = out
  /\ run w ov out se ve = Done (Ok []).
Proof.
  set (out := match main toy_world (toy_opts MSign) (request_text m_req) m_senv m_venv with Done (t, _) => t | Panic => [] end).
  exists toy_world, (fun _ => None), (toy_opts MSign), (toy_opts MVerify), (request_text m_req), (Some (List.length out - 3)%nat), m_senv, m_venv, (firstn (List.length out - 3)%nat out).
  split; [reflexivity|]. split; [vm_compute; reflexivity|]. split; [vm_compute; reflexivity|]. split; vm_compute; reflexivity.
Qed.
Print Assumptions C96_success_is_complete_refuted.
(** And canonicalize can lose its whole output. *)
Theorem C96_nothing_written_refuted : exists (w : world) (files : str -> option source) (o : opt) (stdin : str) (se : sign_env) (ve : verify_env) (out : str),
  op_in_file o = None /\ op_mode o = MCanonicalize /\ run w o stdin se ve = Done (Ok out) /\ out <> []
  /\ fst (main_io w files o (whole stdin) (fresh (Some 0%nat)) se ve) = Done None
  /\ sk_dev (snd (main_io w files o (whole stdin) (fresh (Some 0%nat)) se ve)) = [].
Proof.
  set (o := Opt MCanonicalize None None (Some $"k1") None None None (Some $"rsa-v1_5-sha256") None None None).
  exists toy_world, (fun _ => None), o, (request_text m_req), m_senv, m_venv, (match main toy_world o (request_text m_req) m_senv m_venv with Done (t, _) => t | Panic => [] end).
  split; [reflexivity|]. split; [reflexivity|]. split; [vm_compute; reflexivity|]. split; [vm_compute; discriminate|]. split; vm_compute; reflexivity.
Qed.
Print Assumptions C96_nothing_written_refuted.

(** A request without a body: signing it on a full device fails. *)
Definition io_req : mock := MockReq HTTP_11 $"GET" s_url $"/" [($"host", $"example.com")] None.
Example C96_case : exists x, main toy_world (toy_opts MSign) (request_text io_req) m_senv m_venv = Done (x ++ [ch_lf], None)
  /\ fst (main_io toy_world (fun _ => None) (toy_opts MSign) (whole (request_text io_req)) (fresh (Some 40%nat)) m_senv m_venv) = Done (Some VIo)
  /\ sk_dev (snd (main_io toy_world (fun _ => None) (toy_opts MSign) (whole (request_text io_req)) (fresh (Some 40%nat)) m_senv m_venv))
     = $"GET / HTTP/1.1" ++ [ch_lf] ++ $"host: example.com" ++ [ch_lf] ++ $"signatu"
  /\ fst (main_io toy_world (fun _ => None) (toy_opts MSign) (broken (request_text io_req)) (fresh None) m_senv m_venv) = Panic.
Proof.
  set (out := match main toy_world (toy_opts MSign) (request_text io_req) m_senv m_venv with Done (t, _) => t | Panic => [] end).
  exists (firstn (List.length out - 1)%nat out). split; [vm_compute; reflexivity|]. split; [vm_compute; reflexivity|]. split; vm_compute; reflexivity.
Qed.
