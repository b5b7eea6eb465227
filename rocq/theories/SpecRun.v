(** Runs of the validator, from its input to its output.  Nothing here models code. *)
From Verif Require Export SpecOpt SpecFlow.

(** The checks of verify mode: digests are checked, but not required; the date is not looked
    at. *)
Definition checks (keys : key_provider) : verifying_config := VerifyingConfig keys default_digest_provider [] false true false 0%Z.

Section Run.
  Context (w : world) (o : opt) (stdin : str).
  (** The input is not a request. *)
  Definition unread : Prop := forall r, ~ run_request w o stdin r.

  (** canonicalize prints the signature base. *)
  Inductive canon_run : outcome (result str verror) -> Prop :=
  | canon_unread : unread -> canon_run Panic
  | canon_refused r e : run_request w o stdin r -> canon_opts o (Err e) -> canon_run (Done (Err e))
  | canon_missing r cc q : run_request w o stdin r -> canon_opts o (Ok cc) ->
      In q (cc_components cc) -> mr_derive r q = Done None -> canon_run (Done (Err VSig))
  | canon_printed r cc base : run_request w o stdin r -> canon_opts o (Ok cc) ->
      signature_base (mr_derive r) (cc_components cc) (cc_params cc) base -> canon_run (Done (Ok base))
  | canon_unprintable r cc : run_request w o stdin r -> canon_opts o (Ok cc) ->
      (forall q, In q (cc_components cc) -> mr_derive r q <> Done None) ->
      (forall base, ~ signature_base (mr_derive r) (cc_components cc) (cc_params cc) base) -> canon_run Panic.

  (** sign prints the request with two more headers. *)
  Definition signed_request (r : mock) (c : signing_config) (rnd : N) (sp base : str) : mock :=
    mr_set_header (mr_set_header r $"signature-input" ($"sig=" ++ sp)) $"signature" (signature_text c rnd base).
  Definition in_time (c : signing_config) (now : Z) : Prop := ~ created_late c now /\ ~ expires_early c now.
  Inductive sign_run (now : Z) (rnd : N) : outcome (result str verror) -> Prop :=
  | sign_unread : unread -> sign_run now rnd Panic
  | sign_refused r e : run_request w o stdin r -> sign_opts w o (Err e) -> sign_run now rnd (Done (Err e))
  | sign_untimely r c : run_request w o stdin r -> sign_opts w o (Ok c) -> created_late c now \/ expires_early c now ->
      sign_run now rnd (Done (Err VSig))
  | sign_missing_value r c q : run_request w o stdin r -> sign_opts w o (Ok c) -> in_time c now ->
      In q (sc_components c) -> mr_derive r q = Done None -> sign_run now rnd (Done (Err VSig))
  | sign_illegal r c base : run_request w o stdin r -> sign_opts w o (Ok c) -> in_time c now ->
      signature_base (mr_derive r) (sc_components c) (stamp c now) base -> ~ legal_value (signature_text c rnd base) ->
      sign_run now rnd (Done (Err VSig))
  | sign_printed r c base sp : run_request w o stdin r -> sign_opts w o (Ok c) -> in_time c now ->
      signature_base (mr_derive r) (sc_components c) (stamp c now) base -> legal_value (signature_text c rnd base) ->
      inner_text (map component_item (sc_components c)) (stamp c now) sp ->
      shown (signed_request r c rnd sp base) -> sign_run now rnd (Done (Ok (request_text (signed_request r c rnd sp base))))
  | sign_not_printed r c base sp : run_request w o stdin r -> sign_opts w o (Ok c) -> in_time c now ->
      signature_base (mr_derive r) (sc_components c) (stamp c now) base -> legal_value (signature_text c rnd base) ->
      inner_text (map component_item (sc_components c)) (stamp c now) sp ->
      ~ shown (signed_request r c rnd sp base) -> sign_run now rnd (Done (Err VIo))
  | sign_unprintable r c : run_request w o stdin r -> sign_opts w o (Ok c) -> in_time c now ->
      (forall q, In q (sc_components c) -> mr_derive r q <> Done None) ->
      (forall base, ~ signature_base (mr_derive r) (sc_components c) (stamp c now) base) -> sign_run now rnd Panic.

  (** A request with an unreadable header value is printed up to the header before it. *)
  Definition cut_text (r : mock) (out : str) : Prop :=
    exists before n v after, mr_headers r = before ++ (n, v) :: after
      /\ Forall (fun h => plain (snd h)) before /\ ~ plain v
      /\ out = mr_method r ++ $" " ++ mr_path r ++ $" HTTP/1.1" ++ [ch_lf] ++ List.concat (map header_line before).

  (** verify prints nothing and answers with its exit status. *)
  Inductive verify_run (ve : verify_env) : outcome (result str verror) -> Prop :=
  | verify_unread : unread -> verify_run ve Panic
  | verify_refused r e : run_request w o stdin r -> verify_opts w o (Err e) -> verify_run ve (Done (Err e))
  | verify_accepted r keys kid : run_request w o stdin r -> verify_opts w o (Ok keys) ->
      accepts mr_server r (checks keys) ve kid -> verify_run ve (Done (Ok []))
  | verify_rejected r keys : run_request w o stdin r -> verify_opts w o (Ok keys) -> input_readable mr_server r ->
      (forall kid, ~ accepts mr_server r (checks keys) ve kid) -> verify_run ve (Done (Err VSig))
  | verify_unreadable r keys : run_request w o stdin r -> verify_opts w o (Ok keys) -> ~ input_readable mr_server r ->
      verify_run ve Panic.
End Run.
