(** What is written at level trace (C88).  Nothing here models code. *)
From Verif Require Export SpecLog SpecAuto SpecMore Tracing.

(** The values of a request are texts (in Rust they are of type [String]). *)
Definition text_values (derive : component -> outcome (option str)) : Prop :=
  forall q v, derive q = Done (Some v) -> utf8_text v.

(** The lines of a signature base that is found. *)
Definition base_lines (label : str) (cs : list component) (p : list (str * bare)) (base : str) : list trace_line :=
  [TrBytes base; TrText base; TrInput (SignatureInput label (InnerList (map component_item cs) p))].

(** ** sign *)
Section Sign.
  Context {R : Type} (cr : client_request_like R) (r : R) (c : signing_config) (date : str) (now : Z).
  Inductive sign_lines : list trace_line -> Prop :=
  | lines_times : created_late c now \/ expires_early c now -> sign_lines []
  | lines_missing os : ~ created_late c now -> ~ expires_early c now -> sc_skip_missing c = false ->
      Forall2 (fun q o => completed cr r c date q = Done o) (sc_components c) os ->
      lacking (combine (sc_components c) os) <> [] -> sign_lines [TrMissing (lacking (combine (sc_components c) os))]
  | lines_base cs base : ~ created_late c now -> ~ expires_early c now -> to_sign cr r c date now cs base ->
      sign_lines (base_lines $"sig" cs (stamp c now) base).
End Sign.

(** The same configuration with another key. *)
Definition with_signer (c : signing_config) (sg : http_signer) : signing_config :=
  SigningConfig (sc_label c) sg (sc_digest c) (sc_key_id c) (sc_nonce c) (sc_components c) (sc_compute_digest c) (sc_add_date c)
    (sc_add_host c) (sc_skip_missing c) (sc_created c) (sc_expires c).

(** ** verify *)
Section Verify.
  Context {S Rem : Type} (sr : server_request_like S Rem) (r : S) (c : verifying_config) (env : verify_env).
  (** Up to the point where the base is needed all is well. *)
  Definition base_needed (cc : canon_config) : Prop :=
    exists sig kid, signature_headers sr r cc sig kid /\ times_ok env cc /\ vc_keys c kid <> [].
  Inductive verify_lines : list trace_line -> Prop :=
  | lines_unneeded : (forall cc, ~ base_needed cc) -> verify_lines []
  | lines_missed cc os : base_needed cc -> Forall2 (fun q o => rl_derive (sr_rl sr) r q = Done o) (cc_components cc) os ->
      lacking (combine (cc_components cc) os) <> [] -> verify_lines [TrMissing (lacking (combine (cc_components cc) os))]
  | lines_checked cc base : base_needed cc -> signature_base (rl_derive (sr_rl sr) r) (cc_components cc) (cc_params cc) base ->
      verify_lines (base_lines (cc_get_label cc) (cc_components cc) (cc_params cc) base ++ [TrVerifying base]).
End Verify.
