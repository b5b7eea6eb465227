(** Properties that compare two calls of [sign]: C60 (at another time) and C74. *)
From Verif Require Import SpecAlike AlikeFacts FlowFacts GrowFacts RoundTrip LineFacts MockFacts SpecFacts SignFacts SignMore AutoFacts ReqFacts Samples WitnessSign WitnessRound.

(** C60: signing again, later or with another key, label, nonce or validity.  It succeeds if
    the new times and parameters are valid, replaces the two signature headers and nothing
    else, and covers the values the request has. *)
Theorem C60_signing_again_later :
  forall R (cr : client_request_like R), client_laws cr -> digest_stable cr ->
  forall (r r' : R) (c c' : signing_config) (env env' : sign_env) (pt : str),
  auto_safe cr r c env -> (forall q, In q (sc_components c) -> ~ signature_header q) -> sign cr r c env = Done (r', Ok tt) ->
  let now := seconds (se_sys env') in
  same_coverage c c' -> sys_clock_ok (se_sys env') -> ~ created_late c' now -> ~ expires_early c' now ->
  params_text (stamp c' now) pt -> (forall m, plain (signature_text c' (se_rnd env') m)) ->
  exists r'' cs base sp, sign cr r' c' env' = Done (r'', Ok tt)
    /\ (forall q, ~ signature_header q -> rl_derive (cr_rl cr) r'' q = rl_derive (cr_rl cr) r' q)
    /\ covered (rl_derive (cr_rl cr) r') c' cs /\ signature_base (rl_derive (cr_rl cr) r') cs (stamp c' now) base
    /\ inner_text (map component_item cs) (stamp c' now) sp
    /\ rl_derive (cr_rl cr) r'' (CHeader $"signature-input") = Done (Some ($"sig=" ++ sp))
    /\ rl_derive (cr_rl cr) r'' (CHeader $"signature") = Done (Some (signature_text c' (se_rnd env') base)).
Proof. exact @sign_later. Qed.
Print Assumptions C60_signing_again_later.
(** [m_signed] signed again a day later, with another key and without expiry. *)
Definition a_conf : signing_config :=
  sc_set_created_auto (sc_set_components (sc_new $"sig" $"k2" (toy_signer $"other")) (sc_components m_sconf)).
Definition a_env : sign_env := SignEnv 1618970875000000000 1618970875000000000 1.
Definition a_keys : key_provider := skp_provide (skp_new [($"k2", toy_verifier $"other")]).
Example C60_later_case :
  auto_safe mr_client m_req m_sconf m_senv /\ (forall q, In q (sc_components m_sconf) -> ~ signature_header q)
  /\ sign mr_client m_req m_sconf m_senv = Done (m_signed, Ok tt)
  /\ same_coverage m_sconf a_conf /\ sys_clock_ok (se_sys a_env)
  /\ ~ created_late a_conf (seconds (se_sys a_env)) /\ ~ expires_early a_conf (seconds (se_sys a_env))
  /\ params_text (stamp a_conf (seconds (se_sys a_env))) (s2b ";alg=""toy"";created=1618970875;keyid=""k2""")
  /\ (forall m, plain (signature_text a_conf (se_rnd a_env) m))
  /\ exists r'', sign mr_client m_signed a_conf a_env = Done (r'', Ok tt)
     /\ mr_derive r'' (CHeader $"date") = mr_derive m_req (CHeader $"date")
     /\ verify mr_server r'' (vc_set_validate_date (vc_new a_keys) false) (VerifyEnv 1618970876000000000 1618970876000000000) = Done (Ok (tt, $"k2")).
Proof.
  split; [exact (proj1 m_safe)|]. split; [intros q [<-|[<-|[<-|[<-|[<-|[]]]]]] [E|E]; discriminate|].
  split; [exact m_sign|]. split; [repeat split; reflexivity|]. split; [vm_compute; intuition discriminate|].
  split; [intro H; apply created_late_iff in H; vm_compute in H; discriminate|].
  split; [intro H; apply expires_early_iff in H; vm_compute in H; discriminate|].
  split; [apply params_text_iff; vm_compute; reflexivity|].
  split; [intro m; apply signature_text_plain; [apply plain_iff; reflexivity|]; apply b64_plain|].
  eexists. split; [vm_compute; reflexivity|]. split; vm_compute; reflexivity.
Qed.

(** C74: what [sign] does depends only on the values of the configured components: requests
    of any two types that agree on them get the same result and the same two headers. *)
Theorem C74_same_result :
  forall R1 R2 (cr1 : client_request_like R1), client_laws cr1 -> forall (cr2 : client_request_like R2), client_laws cr2 ->
  forall (r1 : R1) (r2 : R2) (c : signing_config) (env : sign_env) (date : str),
  auto_safe cr1 r1 c env -> auto_safe cr2 r2 c env -> (sc_add_date c = true -> http_date (seconds (se_utc env)) date) ->
  Forall proper_component (sc_components c) -> signs_alike cr1 cr2 r1 r2 c ->
  forall res, (exists r1', sign cr1 r1 c env = Done (r1', res)) <-> (exists r2', sign cr2 r2 c env = Done (r2', res)).
Proof. exact @signed_alike. Qed.
Print Assumptions C74_same_result.
Theorem C74_same_headers :
  forall R1 R2 (cr1 : client_request_like R1), client_laws cr1 -> forall (cr2 : client_request_like R2), client_laws cr2 ->
  forall (r1 r1' : R1) (r2 r2' : R2) (c : signing_config) (env : sign_env) (date : str),
  auto_safe cr1 r1 c env -> auto_safe cr2 r2 c env -> (sc_add_date c = true -> http_date (seconds (se_utc env)) date) ->
  signs_alike cr1 cr2 r1 r2 c -> (forall m, plain (signature_text c (se_rnd env) m)) ->
  sign cr1 r1 c env = Done (r1', Ok tt) -> sign cr2 r2 c env = Done (r2', Ok tt) ->
  forall q, signature_header q -> rl_derive (cr_rl cr1) r1' q = rl_derive (cr_rl cr2) r2' q.
Proof. exact @headers_alike. Qed.
Print Assumptions C74_same_headers.
(** The asynchronous and the blocking reqwest client do the same, errors and panics
    included, unless the body is a stream. *)
Theorem C74_async_and_blocking : forall (r : rq) (c : signing_config) (env : sign_env),
  not_streamed r -> sign rq_async r c env = sign rq_blocking r c env.
Proof. exact sign_agree. Qed.
Print Assumptions C74_async_and_blocking.
(** reqwest and MockRequest agree on the same message if the header values are readable,
    "@authority" is not covered and no Host header is to be added. *)
Theorem C74_reqwest_and_mock : forall (cr : client_request_like rq) (r : rq) (m : mock) (c : signing_config),
  cr = rq_async /\ not_streamed r \/ cr = rq_blocking -> same_message r m ->
  (forall q, In q (sc_components c) -> ~ is_authority q) ->
  (forall h v, In (CHeader h) (sc_components c) -> first_value (rq_headers r) h = Some v -> plain v) ->
  (In (CHeader $"host") (sc_components c) -> sc_add_host c = true -> first_value (rq_headers r) $"host" = None -> u_host (rq_url r) = None) ->
  signs_alike cr mr_client r m c.
Proof. exact message_alike. Qed.
Print Assumptions C74_reqwest_and_mock.
(** The exceptions: a streamed body, and a header that is not visible ASCII. *)
Definition a_rq (b : rq_body) (v : str) : rq := Rq $"POST" s_url [($"date", $"now"); ($"host", $"example.com"); ($"x", v)] b.
Definition a_cover : signing_config := sc_set_components m_sconf [CHeader $"date"; CHeader $"x"; CHeader $"digest"].
Definition a_text (R : Type) (cr : client_request_like R) (r : R) : outcome (option str) :=
  match sign cr r a_cover m_senv with
  | Done (r', Ok _) => rl_derive (cr_rl cr) r' (CHeader $"signature-input")
  | _ => Panic
  end.
Theorem C74_streamed_bodies_refuted : exists (r : rq) (c : signing_config) (env : sign_env) (ra rb : rq),
  sign rq_async r c env = Done (ra, Ok tt) /\ sign rq_blocking r c env = Done (rb, Ok tt)
  /\ rq_derive ra (CHeader $"signature-input") <> rq_derive rb (CHeader $"signature-input").
Proof.
  eexists (a_rq (BStream (Some $"hello")) $"1"), a_cover, m_senv, _, _. split; [vm_compute; reflexivity|]. split; [vm_compute; reflexivity|].
  vm_compute. discriminate.
Qed.
Print Assumptions C74_streamed_bodies_refuted.
Theorem C74_unreadable_headers_refuted : exists (r : rq) (m m' : mock) (c : signing_config) (env : sign_env) (r' : rq),
  same_message r m /\ not_streamed r /\ sign rq_async r c env = Done (r', Ok tt) /\ sign mr_client m c env = Done (m', Ok tt)
  /\ rq_derive r' (CHeader $"signature-input") <> mr_derive m' (CHeader $"signature-input").
Proof.
  set (v := [ascii_of_N 195; ascii_of_N 169]).
  eexists (a_rq (BBytes $"hello") v), (MockReq HTTP_11 $"POST" s_url $"/" (rq_headers (a_rq BNone v)) (Some $"hello")), _, a_cover, m_senv, _.
  split; [constructor; reflexivity|]. split; [intros o; discriminate|]. split; [vm_compute; reflexivity|]. split; [vm_compute; reflexivity|].
  vm_compute. discriminate.
Qed.
Print Assumptions C74_unreadable_headers_refuted.
Definition a_mock : mock := MockReq HTTP_11 $"POST" s_url $"/" (rq_headers (a_rq BNone $"1")) (Some $"hello").
Example C74_case : signs_alike rq_async mr_client (a_rq (BBytes $"hello") $"1") a_mock a_cover
  /\ signs_alike rq_blocking mr_client (a_rq (BStream (Some $"hello")) $"1") a_mock a_cover
  /\ a_text _ mr_client a_mock
     = Done (Some (s2b "sig=(""date"" ""x"" ""digest"");alg=""toy"";created=1618884475;expires=1618884535;keyid=""k1"""))
  /\ a_text _ rq_async (a_rq (BBytes $"hello") $"1") = a_text _ mr_client a_mock
  /\ a_text _ rq_blocking (a_rq (BStream (Some $"hello")) $"1") = a_text _ mr_client a_mock.
Proof.
  assert (A : forall q, In q (sc_components a_cover) -> ~ is_authority q) by (intros q [<-|[<-|[<-|[]]]] [p E]; discriminate E).
  assert (P : forall b h v, In (CHeader h) (sc_components a_cover) -> first_value (rq_headers (a_rq b $"1")) h = Some v -> plain v).
  { intros b h v [E|[E|[E|[]]]] H; injection E as <-; vm_compute in H; try discriminate H; injection H as <-; apply plain_iff; reflexivity. }
  split; [|split; [|vm_compute; intuition reflexivity]].
  - apply message_alike; [left; split; [reflexivity|intro o; discriminate]|constructor; reflexivity|exact A|apply P|discriminate].
  - apply message_alike; [now right|constructor; reflexivity|exact A|apply P|discriminate].
Qed.
