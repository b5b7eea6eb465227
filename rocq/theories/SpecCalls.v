(** Runs of the validator's sign command.  Nothing here models code. *)
From Verif Require Export SpecTail SpecMore.

(** One run: its options, standard input, clock and random numbers, and the request it read. *)
Record sign_command := SignCommand { call_opts : opt; call_stdin : str; call_env : sign_env; call_request : mock }.
Definition call_made (w : world) (k : sign_command) : Prop :=
  op_mode (call_opts k) = MSign /\ sys_clock_ok (se_sys (call_env k)) /\ run_request w (call_opts k) (call_stdin k) (call_request k)
  /\ exists ve out, run w (call_opts k) (call_stdin k) (call_env k) ve = Done (Ok out).
(** The run signed the text [m]. *)
Definition call_signed (w : world) (k : sign_command) (m : str) : Prop :=
  exists c, sign_opts w (call_opts k) (Ok c)
    /\ signature_base (mr_derive (call_request k)) (sc_components c) (stamp c (seconds (se_sys (call_env k)))) m.
(** The URLs that the parser makes have no line feeds. *)
Definition parses_lines (up : url_parser) : Prop := forall s u, up s = Ok u -> line_request [] u.

(** The key that verify was given accepts the signature of the request for the text that the request stands for, though no
    run signed that text. *)
Definition forged_text (w : world) (calls : list sign_command) (ov : opt) (q : mock) : Prop :=
  exists keys kid k cc sig m, verify_opts w ov (Ok keys) /\ In k (keys kid) /\ signature_headers mr_server q cc sig kid
    /\ signature_base (mr_derive q) (cc_components cc) (cc_params cc) m /\ vf_verify k m sig = true
    /\ forall c, In c calls -> ~ call_signed w c m.
(** The request has the components that the run covered, with the values they had there, in the same order and with the same
    parameters of the signature, and [now] is within the times that the run was given. *)
Definition agrees_with (w : world) (k : sign_command) (ov : opt) (q : mock) (now : Z) : Prop :=
  exists c input cc, sign_opts w (call_opts k) (Ok c) /\ mr_derive q (CHeader $"signature-input") = Done (Some input) /\ input_reads input cc
    /\ same_params (cc_params cc) (stamp c (seconds (se_sys (call_env k))))
    /\ Forall2 (fun a b => same_component a b /\ exists v, mr_derive q a = Done (Some v) /\ mr_derive (call_request k) b = Done (Some v))
         (cc_components cc) (sc_components c)
    /\ or_else [] (op_key_id (call_opts k)) = or_else [] (op_key_id ov)
    /\ (forall t, op_created (call_opts k) = Some t -> (t <= now)%Z) /\ (forall t, op_expires (call_opts k) = Some t -> (now <= t)%Z).
