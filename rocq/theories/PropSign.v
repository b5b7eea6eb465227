(** Properties of [sign]: C14, C25-C27, C40, C43, C44.  [client_laws] (SpecSign.v) are
    the laws of the request traits; [C25_laws] shows that the requests of the crate have them. *)
From Verif Require Import SpecSign SpecReq SpecCalendar SignMore Samples WitnessSign.

(** C14: the times a signature carries. *)
Theorem C14_times_of_a_successful_sign :
  forall R (cr : client_request_like R), client_laws cr ->
  forall (r r' : R) (c : signing_config) (env : sign_env),
  sys_clock_ok (se_sys env) -> sign cr r c env = Done (r', Ok tt) ->
  let now := seconds (se_sys env) in
  (forall t, created_at c now = Some t -> (t <= now)%Z) /\ (forall t, expires_at c now = Some t -> (now <= t)%Z)
  /\ exists items sp, rl_derive (cr_rl cr) r' (CHeader $"signature-input") = Done (Some ($"sig=" ++ sp))
       /\ inner_text items (stamp c now) sp.
Proof. exact @sign_times. Qed.
Print Assumptions C14_times_of_a_successful_sign.
Theorem C14_errors :
  forall R (cr : client_request_like R), client_laws cr ->
  forall (r r' : R) (c : signing_config) (env : sign_env) (res : result unit error),
  sys_clock_ok (se_sys env) -> sign cr r c env = Done (r', res) ->
  let now := seconds (se_sys env) in
  (res = Err EInvalidSignatureCreationDate <-> exists t, created_at c now = Some t /\ (now < t)%Z)
  /\ (res = Err EInvalidSignatureExpiresDate <->
      ~ (exists t, created_at c now = Some t /\ (now < t)%Z) /\ exists t, expires_at c now = Some t /\ (t < now)%Z).
Proof. exact @sign_time_errors. Qed.
Print Assumptions C14_errors.
Example C14_case :
  sign mr_client m_req m_sconf m_senv = Done (m_signed, Ok tt)
  /\ rl_derive mr_rl m_signed (CHeader $"signature-input") = Done (Some m_input)
  /\ snd (sign_or mr_client m_req (sc_set_created_at m_sconf 1618884476) m_senv) = Err EInvalidSignatureCreationDate
  /\ snd (sign_or mr_client m_req (sc_set_created_at m_sconf 1618884475) m_senv) = Ok tt
  /\ snd (sign_or mr_client m_req (sc_set_expires_at m_sconf 1618884474) m_senv) = Err EInvalidSignatureExpiresDate
  /\ snd (sign_or mr_client m_req (sc_set_expires_at m_sconf 1618884475) m_senv) = Ok tt.
Proof. vm_compute. repeat split; reflexivity. Qed.

(** C25: [sign] changes nothing but its own headers. *)
Theorem C25_laws : client_laws rq_async /\ client_laws rq_blocking /\ client_laws mr_client /\ server_laws mr_server.
Proof. exact (conj rq_async_laws (conj rq_blocking_laws (conj mr_client_laws mr_server_laws))). Qed.
Print Assumptions C25_laws.
Theorem C25_frame :
  forall R (cr : client_request_like R), client_laws cr ->
  forall (r r' : R) (c : signing_config) (env : sign_env) (res : result unit error),
  sys_clock_ok (se_sys env) -> sign cr r c env = Done (r', res) ->
  forall q, rl_derive (cr_rl cr) r' q = rl_derive (cr_rl cr) r q
    \/ signature_header q
    \/ rl_derive (cr_rl cr) r q = Done None
       /\ (q = CHeader $"date" /\ sc_add_date c = true
           \/ q = CHeader $"host" /\ sc_add_host c = true
           \/ q = CHeader $"digest" /\ sc_compute_digest c = true).
Proof. exact @sign_frame_derive. Qed.
Print Assumptions C25_frame.
Theorem C25_frame_mock : forall (r r' : mock) (c : signing_config) (env : sign_env) (res : result unit error),
  sys_clock_ok (se_sys env) -> sign mr_client r c env = Done (r', res) ->
  mr_version r' = mr_version r /\ mr_method r' = mr_method r /\ mr_url r' = mr_url r /\ mr_path r' = mr_path r
  /\ mr_body r' = mr_body r
  /\ forall h, ~ may_change c (fun k => hm_get_all (mr_headers r) k <> []) h ->
       hm_get_all (mr_headers r') h = hm_get_all (mr_headers r) h.
Proof. exact mock_frame. Qed.
Print Assumptions C25_frame_mock.
(** A header of a reqwest request that is not readable as text counts as absent. *)
Theorem C25_frame_reqwest : forall (cr : client_request_like rq) (r r' : rq) (c : signing_config) (env : sign_env) (res : result unit error),
  cr = rq_async \/ cr = rq_blocking ->
  sys_clock_ok (se_sys env) -> sign cr r c env = Done (r', res) ->
  rq_method r' = rq_method r /\ rq_url r' = rq_url r /\ body_content (rq_bod r') = body_content (rq_bod r)
  /\ forall h, ~ may_change c (rq_readable r) h -> hm_get_all (rq_headers r') h = hm_get_all (rq_headers r) h.
Proof. exact rq_frame. Qed.
Print Assumptions C25_frame_reqwest.
(** Blocking request, streamed body: date is kept, host and digest are added. *)
Example C25_case :
  let r := Rq $"POST" s_url [($"x", $"1"); ($"x", $"2"); (h_date, $"today")] (BStream (Some $"hello")) in
  match sign rq_blocking r m_sconf m_senv with
  | Done (r', Ok _) => map (hm_get_all (rq_headers r')) [$"x"; $"date"; $"host"; $"digest"]
      = [[$"1"; $"2"]; [$"today"]; [$"example.com"]; [$"SHA-256=LPJNul+wow4m6DsqxbninhsWHlwfp0JecwQzYpOLmCQ="]]
  | _ => False
  end.
Proof. vm_compute. reflexivity. Qed.

(** C26: a failed [sign] attaches no signature. *)
Theorem C26_failed_sign_attaches_nothing :
  forall R (cr : client_request_like R), client_laws cr ->
  forall (r r' : R) (c : signing_config) (env : sign_env) (e : error),
  sys_clock_ok (se_sys env) -> sign cr r c env = Done (r', Err e) ->
  rl_derive (cr_rl cr) r' (CHeader $"signature") = rl_derive (cr_rl cr) r (CHeader $"signature")
  /\ (rl_derive (cr_rl cr) r' (CHeader $"signature-input") = rl_derive (cr_rl cr) r (CHeader $"signature-input")
      \/ e = EConvertHeader /\ exists base, ~ legal_value (signature_text c (se_rnd env) base)).
Proof. exact @sign_failed_headers. Qed.
Print Assumptions C26_failed_sign_attaches_nothing.
(** Both kinds of failure. *)
Example C26_case :
  map (fun c => let '(r', res) := sign_or mr_client m_req c m_senv in
                (res, hm_get (mr_headers r') h_signature, hm_get (mr_headers r') h_signature_input))
    [sc_set_skip_missing m_sconf false; SigningConfig [ch_lf] (sc_signature m_sconf) (sc_digest m_sconf) (sc_key_id m_sconf)
       None (sc_components m_sconf) true true true true CrAutomatic (ExRelative 60)]
  = [(Err ECanonicalize, None, None); (Err EConvertHeader, None, Some m_input)].
Proof. vm_compute. reflexivity. Qed.

(** C27: when [sign] panics. *)
Theorem C27_sign_panics_exactly_on_unprintable_values :
  forall R (cr : client_request_like R), client_laws cr ->
  forall (r : R) (c : signing_config) (env : sign_env),
  let now := seconds (se_sys env) in
  auto_safe cr r c env -> Forall proper_component (sc_components c) ->
  (sign cr r c env = Panic <->
   ~ created_late c now /\ ~ expires_early c now
   /\ (sc_skip_missing c = true \/ forall q, In q (sc_components c) -> available cr r c q)
   /\ unprintable (cr_rl cr) r c now).
Proof. exact @sign_panic_iff. Qed.
Print Assumptions C27_sign_panics_exactly_on_unprintable_values.
Theorem C27_printable_parameters : forall (c : signing_config) (now : Z),
  (exists t, params_text (stamp c now) t) <-> stamp_printable c now.
Proof. exact stamp_text. Qed.
Print Assumptions C27_printable_parameters.
Theorem C27_no_panic_on_representable_configurations :
  forall R (cr : client_request_like R), client_laws cr ->
  forall (r : R) (c : signing_config) (env : sign_env),
  auto_safe cr r c env -> Forall component_rep (sc_components c) -> stamp_printable c (seconds (se_sys env)) ->
  exists r' res, sign cr r c env = Done (r', res).
Proof. exact @sign_no_panic. Qed.
Print Assumptions C27_no_panic_on_representable_configurations.
Example C27_case : auto_safe mr_client m_req m_sconf m_senv /\ Forall component_rep (sc_components m_sconf)
  /\ stamp_printable m_sconf 1618884475
  /\ sign mr_client m_req (sc_set_created_at m_sconf (-1000000000000000)) m_senv = Panic
  /\ sign mr_client m_req (SigningConfig $"sig" (sc_signature m_sconf) sha256_digest [ch_lf] None [] true true true true CrOmit ExOmit) m_senv = Panic.
Proof. exact m_safe. Qed.

(** C40: the automatic Date header. *)
Theorem C40_date_header :
  forall R (cr : client_request_like R), client_laws cr ->
  forall (r r' : R) (c : signing_config) (env : sign_env) (res : result unit error),
  sc_add_date c = true -> rl_derive (cr_rl cr) r (CHeader $"date") = Done None ->
  sys_clock_ok (se_sys env) -> utc_clock_ok (se_utc env) -> (seconds (se_utc env) <= 253402300799)%Z ->
  sign cr r c env = Done (r', res) ->
  exists t, rl_derive (cr_rl cr) r' (CHeader $"date") = Done (Some t)
            /\ http_date (seconds (se_utc env)) t /\ plain t /\ List.length t = 29%nat.
Proof. exact @sign_http_date. Qed.
Print Assumptions C40_date_header.
(** After the year 9999 the text is not an HTTP date. *)
Theorem C40_after_9999 :
  forall R (cr : client_request_like R), client_laws cr ->
  forall (r r' : R) (c : signing_config) (env : sign_env) (res : result unit error),
  sc_add_date c = true -> rl_derive (cr_rl cr) r (CHeader $"date") = Done None ->
  sys_clock_ok (se_sys env) -> utc_clock_ok (se_utc env) -> (253402300799 < seconds (se_utc env))%Z ->
  sign cr r c env = Done (r', res) ->
  exists t, rl_derive (cr_rl cr) r' (CHeader $"date") = Done (Some t)
            /\ late_date (seconds (se_utc env)) t /\ forall a, ~ http_date a t.
Proof. exact @sign_late_date. Qed.
Print Assumptions C40_after_9999.
Theorem C40_date_text_determines_the_second : forall (a b : Z) (t : str), http_date a t -> http_date b t -> a = b.
Proof. exact http_date_inj. Qed.
Print Assumptions C40_date_text_determines_the_second.
(** It is always a legal header value. *)
Theorem C40_date_text_always_legal : forall secs, plain (fmt_http_date secs).
Proof. exact fmt_plain. Qed.
Print Assumptions C40_date_text_always_legal.
Example C40_case : map fmt_http_date [0; 951782400; 1618884475; 253402300799; 253402300800]%Z
  = [$"Thu, 01 Jan 1970 00:00:00 GMT"; $"Tue, 29 Feb 2000 00:00:00 GMT"; $"Tue, 20 Apr 2021 02:07:55 GMT";
     $"Fri, 31 Dec 9999 23:59:59 GMT"; $"Sat, 01 Jan +10000 00:00:00 GMT"].
Proof. vm_compute. reflexivity. Qed.

(** C43: which components are covered. *)
Theorem C43_coverage :
  forall R (cr : client_request_like R), client_laws cr ->
  forall (r r' : R) (c : signing_config) (env : sign_env),
  auto_safe cr r c env -> Forall proper_component (sc_components c) -> sign cr r c env = Done (r', Ok tt) ->
  exists cs sp,
    (if sc_skip_missing c then keeps (available cr r c) (sc_components c) cs
     else cs = sc_components c /\ forall q, In q cs -> available cr r c q)
    /\ inner_text (map component_item cs) (stamp c (seconds (se_sys env))) sp
    /\ rl_derive (cr_rl cr) r' (CHeader $"signature-input") = Done (Some ($"sig=" ++ sp)).
Proof. exact @sign_covers. Qed.
Print Assumptions C43_coverage.
Theorem C43_missing_component_fails :
  forall R (cr : client_request_like R), client_laws cr ->
  forall (r : R) (c : signing_config) (env : sign_env),
  auto_safe cr r c env -> Forall proper_component (sc_components c) -> sc_skip_missing c = false ->
  ~ created_late c (seconds (se_sys env)) -> ~ expires_early c (seconds (se_sys env)) ->
  ((exists r', sign cr r c env = Done (r', Err ECanonicalize)) <-> exists q, In q (sc_components c) /\ ~ available cr r c q).
Proof. exact @sign_missing. Qed.
Print Assumptions C43_missing_component_fails.
Example C43_case : rl_derive mr_rl m_signed (CHeader $"signature-input") = Done (Some m_input)
  /\ snd (sign_or mr_client m_req (sc_set_skip_missing m_sconf false) m_senv) = Err ECanonicalize.
Proof. vm_compute. split; reflexivity. Qed.

(** C44 is false: the nonce is written as a token (unquoted), and one that is not a token panics. *)
Theorem C44_nonce_is_a_token :
  forall R (cr : client_request_like R), client_laws cr ->
  forall (r r' : R) (c : signing_config) (env : sign_env) (n : str),
  sys_clock_ok (se_sys env) -> sc_nonce c = Some n -> sign cr r c env = Done (r', Ok tt) ->
  token_text n n /\ exists pre, rl_derive (cr_rl cr) r' (CHeader $"signature-input") = Done (Some (pre ++ $";nonce=" ++ n)).
Proof. exact @nonce_token. Qed.
Print Assumptions C44_nonce_is_a_token.
Theorem C44_other_nonces_panic :
  forall R (cr : client_request_like R), client_laws cr ->
  forall (r : R) (c : signing_config) (env : sign_env) (n : str),
  let now := seconds (se_sys env) in
  auto_safe cr r c env -> Forall proper_component (sc_components c) -> sc_skip_missing c = true ->
  sc_nonce c = Some n -> ~ token_text n n ->
  (sign cr r c env = Panic <-> ~ created_late c now /\ ~ expires_early c now).
Proof. exact @nonce_not_token. Qed.
Print Assumptions C44_other_nonces_panic.
Theorem C44_any_nonce_signs_refuted : exists (n : str),
  Forall visible n /\ sign mr_client m_req (sc_set_nonce m_sconf n) m_senv = Panic.
Proof. exact nonce_panics. Qed.
Print Assumptions C44_any_nonce_signs_refuted.
(** The empty nonce is signed, but the result cannot be read back. *)
Theorem C44_empty_nonce_refuted : exists (r' : mock),
  sign mr_client m_req (sc_set_nonce m_sconf []) m_senv = Done (r', Ok tt) /\ verify mr_server r' m_vconf m_venv = Panic.
Proof. exact empty_nonce. Qed.
Print Assumptions C44_empty_nonce_refuted.
Example C44_case : exists r', sign mr_client m_req (sc_set_nonce m_sconf $"a1") m_senv = Done (r', Ok tt)
  /\ rl_derive mr_rl r' (CHeader $"signature-input") = Done (Some (m_input ++ $";nonce=a1")).
Proof. exists (fst (sign_or mr_client m_req (sc_set_nonce m_sconf $"a1") m_senv)). split; vm_compute; reflexivity. Qed.
Example C44_other_case : let c := sc_set_nonce m_sconf $"a b" in let now := seconds (se_sys m_senv) in
  auto_safe mr_client m_req c m_senv /\ Forall proper_component (sc_components c) /\ sc_skip_missing c = true
  /\ sc_nonce c = Some $"a b" /\ ~ token_text $"a b" $"a b" /\ ~ created_late c now /\ ~ expires_early c now
  /\ sign mr_client m_req c m_senv = Panic.
Proof.
  split; [exact (proj1 m_safe)|]. split.
  - eapply Forall_impl; [|exact (proj1 (proj2 m_safe))]. exact component_rep_proper.
  - split; [reflexivity|]. split; [reflexivity|]. split.
    + intros (H & _). inversion H as [|a l _ H2]; subst. inversion H2 as [|b l2 [[L|[L|L]]|L] _]; subst; vm_compute in L; intuition discriminate.
    + split; [intros (t & E & L); injection E as <-; vm_compute in L; discriminate|].
      split; [intros (t & E & L); injection E as <-; vm_compute in L; discriminate|]. vm_compute. reflexivity.
Qed.
