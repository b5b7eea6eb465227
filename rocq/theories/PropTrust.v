(** C77: an accepted request is one that was signed. *)
From Verif Require Import TrustFacts WitnessUrl WitnessRound UrlNormal.

(** [history]: calls of [sign] that covered method, URL and Digest header and let [sign] compute
    the digest (SpecTrust.v).  The server validates digests.  An accepted request has the method,
    the URL and the covered headers of one of the requests signed, and if that one had a
    body, a body with the same hash; or it is a forgery. *)
Theorem C77_accepted_requests_were_signed : forall (hp : host_parser) (history : list (signing_event mock)) (s : mock) (vc : verifying_config) (venv : verify_env) (kid : str),
  host_laws hp -> Forall (happened mr_client) history ->
  (forall e, In e history -> covers_message (ev_config e) /\ proper_line hp (mr_method (ev_before e)) (mr_url (ev_before e))
                             /\ mr_derive (ev_before e) (CHeader $"digest") = Done None) ->
  proper_line hp (mr_method s) (mr_url s) -> sys_clock_ok (ve_sys venv) ->
  vc_validate_digest vc = true -> vc_digests vc = default_digest_provider ->
  verify mr_server s vc venv = Done (Ok (tt, kid)) ->
  forged mr_client history mr_server s (vc_keys vc) kid
  \/ exists e, In e history /\ sc_key_id (ev_config e) = kid /\ valid_at e (ve_sys venv)
      /\ mr_method s = mr_method (ev_before e) /\ mr_url s = mr_url (ev_before e)
      /\ (forall h v, In (CHeader h) (sc_components (ev_config e)) -> h <> $"signature-input" -> h <> $"signature" ->
            mr_derive (ev_after e) (CHeader h) = Done (Some v) -> mr_derive s (CHeader h) = Done (Some v))
      /\ (forall b', mr_body (ev_before e) = Some b' -> exists b, mr_body s = Some b /\ same_hash (sc_digest (ev_config e)) b b')
      /\ (In (CHeader $"digest") (vc_required vc) -> exists b', mr_body (ev_before e) = Some b').
Proof. exact mr_trusted. Qed.
Print Assumptions C77_accepted_requests_were_signed.
(** The same for requests sent by reqwest. *)
Theorem C77_accepted_requests_were_sent : forall (hp : host_parser) (cr : client_request_like rq) (history : list (signing_event rq)) (s : mock) (vc : verifying_config) (venv : verify_env) (kid : str),
  cr = rq_async \/ cr = rq_blocking -> host_laws hp -> Forall (happened cr) history ->
  (forall e, In e history -> covers_message (ev_config e) /\ proper_line hp (rq_method (ev_before e)) (rq_url (ev_before e))
                             /\ rq_derive (ev_before e) (CHeader $"digest") = Done None) ->
  proper_line hp (mr_method s) (mr_url s) -> sys_clock_ok (ve_sys venv) ->
  vc_validate_digest vc = true -> vc_digests vc = default_digest_provider ->
  verify mr_server s vc venv = Done (Ok (tt, kid)) ->
  forged cr history mr_server s (vc_keys vc) kid
  \/ exists e, In e history /\ sc_key_id (ev_config e) = kid /\ valid_at e (ve_sys venv)
      /\ mr_method s = rq_method (ev_before e) /\ mr_url s = rq_url (ev_before e)
      /\ (forall h v, In (CHeader h) (sc_components (ev_config e)) -> h <> $"signature-input" -> h <> $"signature" ->
            rq_derive (ev_after e) (CHeader h) = Done (Some v) -> mr_derive s (CHeader h) = Done (Some v))
      /\ (forall b', read_body cr (ev_before e) b' -> exists b, mr_body s = Some b /\ same_hash (sc_digest (ev_config e)) b b')
      /\ (In (CHeader $"digest") (vc_required vc) -> exists b', read_body cr (ev_before e) b').
Proof. exact rq_trusted. Qed.
Print Assumptions C77_accepted_requests_were_sent.

Definition t_text (body : str) : str :=
  $"POST /b/c?d=e HTTP/1.1" ++ [ch_lf] ++ $"host: A.org:8080" ++ [ch_lf] ++ $"x: 1" ++ [ch_lf] ++ body.
Definition t_req (body : str) : mock :=
  match from_reader true (url_parse toy_host toy_schemes) (t_text body) with Done (Some r) => r | _ => m_req end.
Definition t_conf : signing_config :=
  sc_set_add_date (sc_set_components m_sconf [derived_named $"@method" []; derived_named $"@target-uri" []; CHeader $"x"; CHeader $"digest"]) false.
Definition t_signed (r : mock) : mock := match sign mr_client r t_conf m_senv with Done (r', _) => r' | Panic => m_req end.
Definition t_event (body : str) : signing_event mock := SigningEvent (t_req body) (t_signed (t_req body)) t_conf m_senv.
Definition t_hello : str := [ch_lf] ++ $"hello".
Lemma t_covers : covers_message t_conf.
Proof.
  split; [cbn; tauto|]. split; [cbn; tauto|]. split; [cbn; tauto|]. split; [|split; [reflexivity|now left]].
  intros q [<-|[<-|[<-|[<-|[]]]]] [p E]; discriminate E.
Qed.
Lemma t_proper (body : str) : mr_method (t_req body) = $"POST" -> mr_url (t_req body) = mr_url (t_req []) ->
  proper_line toy_host (mr_method (t_req body)) (mr_url (t_req body)).
Proof.
  intros -> ->. split; [intros [E|[E|[E|[E|[]]]]]; discriminate E|]. exists $"http://A.org:8080/b/c?d=e".
  apply (http_text toy_host toy_schemes $"//A.org:8080/b/c?d=e"). vm_compute. reflexivity.
Qed.
Lemma t_happened (body : str) : sign mr_client (t_req body) t_conf m_senv = Done (t_signed (t_req body), Ok tt) -> happened mr_client (t_event body).
Proof.
  intro H. split; [vm_compute; intuition discriminate|]. split; [exact H|]. split; [|discriminate].
  do 4 (constructor; [apply component_repb_rep; vm_compute; reflexivity|]). constructor.
Qed.
Example C77_case : host_laws toy_host /\ Forall (happened mr_client) [t_event t_hello] /\ covers_message t_conf
  /\ proper_line toy_host (mr_method (t_req t_hello)) (mr_url (t_req t_hello))
  /\ mr_derive (t_req t_hello) (CHeader $"digest") = Done None /\ mr_body (t_req t_hello) = Some $"hello"
  /\ verify mr_server (t_signed (t_req t_hello)) m_vconf m_venv = Done (Ok (tt, $"k1"))
  /\ vc_validate_digest m_vconf = true /\ vc_digests m_vconf = default_digest_provider.
Proof.
  split; [exact toy_host_laws|]. split; [constructor; [apply t_happened; vm_compute; reflexivity|constructor]|]. split; [exact t_covers|].
  split; [apply t_proper; vm_compute; reflexivity|]. split; [vm_compute; reflexivity|]. split; [vm_compute; reflexivity|].
  split; [vm_compute; reflexivity|]. split; reflexivity.
Qed.
(** A request signed without a body can be given one, unless the Digest header is required. *)
Definition t_added : mock :=
  let r := t_signed (t_req []) in MockReq (mr_version r) (mr_method r) (mr_url r) (mr_path r)
    (mr_headers r ++ [($"digest", $"SHA-256=LPJNul+wow4m6DsqxbninhsWHlwfp0JecwQzYpOLmCQ=")]) (Some $"hello").
Theorem C77_body_added_refuted : exists (hp : host_parser) (history : list (signing_event mock)) (s : mock) (vc : verifying_config) (venv : verify_env) (kid : str),
  host_laws hp /\ Forall (happened mr_client) history
  /\ (forall e, In e history -> covers_message (ev_config e) /\ proper_line hp (mr_method (ev_before e)) (mr_url (ev_before e))
                                /\ mr_derive (ev_before e) (CHeader $"digest") = Done None)
  /\ vc_validate_digest vc = true /\ vc_require_digest vc = true /\ vc_digests vc = default_digest_provider
  /\ verify mr_server s vc venv = Done (Ok (tt, kid))
  /\ mr_body s = Some $"hello" /\ forall e, In e history -> mr_body (ev_before e) = None /\ mr_body (ev_after e) = None.
Proof.
  exists toy_host, [t_event []], t_added, m_vconf, m_venv, $"k1". split; [exact toy_host_laws|].
  split; [constructor; [apply t_happened; vm_compute; reflexivity|constructor]|].
  split; [intros e [<-|[]]; split; [exact t_covers|]; split; [apply t_proper; vm_compute; reflexivity|vm_compute; reflexivity]|].
  split; [reflexivity|]. split; [reflexivity|]. split; [reflexivity|]. split; [vm_compute; reflexivity|]. split; [reflexivity|].
  intros e [<-|[]]. split; vm_compute; reflexivity.
Qed.
Print Assumptions C77_body_added_refuted.
