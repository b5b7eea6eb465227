(** Histories of signatures, weaker configurations, verdicts.  Nothing here models code. *)
From Verif Require Export SpecLine.

(** ** Histories of signatures *)
(** One call of [sign]: the request before and after it, configuration, clocks. *)
Record signing_event (R : Type) := SigningEvent { ev_before : R; ev_after : R; ev_config : signing_config; ev_env : sign_env }.
Arguments SigningEvent {R}. Arguments ev_before {R}. Arguments ev_after {R}. Arguments ev_config {R}. Arguments ev_env {R}.
Section Event.
  Context {R : Type} (cr : client_request_like R) (e : signing_event R).
  (** The call succeeded, with components that structured fields can represent. *)
  Definition happened : Prop :=
    sys_clock_ok (se_sys (ev_env e)) /\ sign cr (ev_before e) (ev_config e) (ev_env e) = Done (ev_after e, Ok tt)
    /\ Forall component_rep (sc_components (ev_config e)) /\ sc_nonce (ev_config e) <> Some [].
  Definition ev_view : component -> outcome (option str) := signed_view (cr_rl cr) (ev_before e) (ev_after e).
  Definition ev_stamp : list (str * bare) := stamp (ev_config e) (seconds (se_sys (ev_env e))).
  (** The call signed the text [m]. *)
  Definition signed_text (m : str) : Prop :=
    exists cs, covered ev_view (ev_config e) cs /\ signature_base ev_view cs ev_stamp m.
End Event.

(** The request is a forgery: a key accepts the signature it carries over the signature base
    it stands for, though no call of the history signed that text. *)
Definition forged {R S Rem} (cr : client_request_like R) (history : list (signing_event R)) (sr : server_request_like S Rem) (s : S)
    (keys : key_provider) (kid : str) : Prop :=
  exists cc sig m k, signature_headers sr s cc sig kid /\ signature_base (rl_derive (sr_rl sr) s) (cc_components cc) (cc_params cc) m
    /\ In k (keys kid) /\ vf_verify k m sig = true /\ forall e, In e history -> ~ signed_text cr e m.

(** Line feeds occur in no value, except of [@query-params]. *)
Definition single_line (derive : component -> outcome (option str)) : Prop :=
  forall q v, ~ is_query_params q -> derive q = Done (Some v) -> ~ In ch_lf v.

(** ** Weaker configurations *)
Record laxer (c c' : verifying_config) : Prop := Laxer {
  lax_keys : forall id k, In k (vc_keys c id) -> In k (vc_keys c' id);
  lax_digests : vc_digests c' = vc_digests c;
  lax_required : incl (vc_required c') (vc_required c);
  lax_require : vc_require_digest c' = true -> vc_require_digest c = true;
  lax_validate : vc_validate_digest c' = true -> vc_validate_digest c = true;
  lax_date : vc_validate_date c' = true -> vc_validate_date c = true;
  lax_leeway : (vc_date_leeway c <= vc_date_leeway c')%Z
}.

(** ** Verdicts *)
Inductive verdict := Accepted (kid : str) | Rejected | Panicked.
Definition verdict_of {Rem} (o : outcome (result (Rem * str) Rem)) : verdict :=
  match o with Done (Ok (_, kid)) => Accepted kid | Done (Err _) => Rejected | Panic => Panicked end.

(** What is handed back when verification ends. *)
Definition handed_back {Rem} (res : result (Rem * str) Rem) : Rem := match res with Ok (rem, _) => rem | Err rem => rem end.

(** The configuration without its digest options. *)
Definition without_digest (c : verifying_config) : verifying_config :=
  VerifyingConfig (vc_keys c) (vc_digests c) (vc_required c) false false (vc_validate_date c) (vc_date_leeway c).

(** ** Signing again *)
(** Computing a digest does not change the host, and a body without digest stays so. *)
Record digest_stable {R} (cr : client_request_like R) : Prop := DigestStable {
  ds_host : forall r d, cr_host cr (fst (cr_compute_digest cr r d)) = cr_host cr r;
  ds_none : forall r d, snd (cr_compute_digest cr r d) = None -> snd (cr_compute_digest cr (fst (cr_compute_digest cr r d)) d) = None
}.

(** ** Text *)
(** Method and URL parts are UTF-8 (in Rust they are of type [String]). *)
Definition utf8_opt (o : option str) : Prop := match o with None => True | Some s => utf8_text s end.
Definition utf8_line (method : str) (u : url) : Prop :=
  utf8_text method /\ utf8_text (u_scheme u) /\ utf8_text (u_username u) /\ utf8_opt (u_password u) /\ utf8_opt (u_host u)
  /\ utf8_text (u_path u) /\ utf8_opt (u_query u) /\ utf8_opt (u_fragment u).
