(** C90: the actix-web adapter. *)
From Verif Require Import SpecActix ActixFacts RoundTrip SpecFacts SignMore CompFacts ReadFacts Samples WitnessSign WitnessRound.

(** The value of every derived component; no other component and no other name has one. *)
Theorem C90_values : forall (r : actix) (d : derived) (n : str), it_bare (dc_item d) = BString n ->
  (forall v, ax_derive r (CDerived d) = Done (Some v) <-> actix_value r n v)
  /\ (ax_derive r (CDerived d) = Done None <-> forall v, ~ actix_value r n v).
Proof. exact ax_values. Qed.
Print Assumptions C90_values.
(** The value of a header field: its first one, if it is a text. *)
Theorem C90_header_values : forall (r : actix) (h : str),
  (forall v, ax_derive r (CHeader h) = Done (Some v) <-> first_value (ax_headers r) h = Some v /\ plain v)
  /\ (ax_derive r (CHeader h) = Done None <-> forall v, first_value (ax_headers r) h = Some v -> ~ plain v).
Proof. exact ax_header_values. Qed.
Print Assumptions C90_header_values.
(** A component is present if it has a value. *)
Theorem C90_has_component : forall (r : actix) (q : component),
  (ax_has_component r q = Done true <-> exists v, ax_derive r q = Done (Some v))
  /\ (ax_has_component r q = Done false <-> ax_derive r q = Done None) /\ (ax_has_component r q = Panic <-> ax_derive r q = Panic).
Proof. exact ax_has. Qed.
Print Assumptions C90_has_component.
(** The laws under which C10, C28, C59, C67 and the others hold for every server. *)
Theorem C90_laws : server_laws ax_server.
Proof. exact ax_laws. Qed.
Print Assumptions C90_laws.

(** The body is digested as a whole, however it is cut into chunks, and handed back. *)
Theorem C90_body : forall (r : actix) (d : http_digest) (body : str), payload_is r body ->
  ax_complete_with_digest r d = match body with [] => (None, None) | _ :: _ => (Some (dg_digest d body), Some body) end.
Proof. exact ax_body. Qed.
Print Assumptions C90_body.
Theorem C90_broken_body : forall (r : actix) (d : http_digest), In None (ax_payload r) -> ax_complete_with_digest r d = (None, None).
Proof. exact ax_broken. Qed.
Print Assumptions C90_broken_body.

(** What the caller gets back with the verdict is the whole body, or nothing. *)
Theorem C90_handed_back : forall (r : actix) (c : verifying_config) (env : verify_env) (res : result (option str * str) (option str)),
  verify ax_server r c env = Done res ->
  handed_back res = None \/ exists body, body <> [] /\ payload_is r body /\ handed_back res = Some body.
Proof. exact ax_handed. Qed.
Print Assumptions C90_handed_back.

(** It judges as MockRequest does where only header fields, method, path and query are covered. *)
Theorem C90_same_verdict : forall (m : mock) (r : actix) (c : verifying_config) (env : verify_env),
  same_request m r -> mr_body m <> Some [] -> Forall (legible m) [$"signature-input"; $"signature"; $"digest"] ->
  (forall input cc q, header_value mr_server m $"signature-input" input -> input_reads input cc -> In q (cc_components cc) -> as_sent m q) ->
  verdict_of (verify ax_server r c env) = verdict_of (verify mr_server m c env).
Proof. exact ax_verdict. Qed.
Print Assumptions C90_same_verdict.

(** Such a request, signed with reqwest, is accepted. *)
Theorem C90_reqwest_to_actix :
  forall (cr : client_request_like rq) (r r' : rq) (a : actix) (c : signing_config) (env : sign_env) (vc : verifying_config)
    (venv : verify_env) (k : http_verifier),
  cr = rq_async /\ not_streamed r \/ cr = rq_blocking ->
  sys_clock_ok (se_sys env) -> sign cr r c env = Done (r', Ok tt) -> arrives r' a -> nonempty_body r' ->
  sc_label c = $"sig" -> sc_nonce c <> Some [] ->
  Forall component_rep (sc_components c) -> (forall q, In q (sc_components c) -> ~ signature_header q /\ ~ needs_more q) ->
  first_value (rq_headers r) $"digest" = None -> sc_compute_digest c = true ->
  sc_digest c = sha256_digest \/ sc_digest c = sha512_digest -> vc_digests vc = default_digest_provider ->
  matching (sc_signature c) (se_rnd env) k -> In k (vc_keys vc (sc_key_id c)) ->
  sys_clock_ok (ve_sys venv) -> vc_validate_date vc = false ->
  (forall t, created_at c (seconds (se_sys env)) = Some t -> (t <= seconds (ve_sys venv))%Z) ->
  (forall t, expires_at c (seconds (se_sys env)) = Some t -> (seconds (ve_sys venv) <= t)%Z) ->
  (forall q, In q (vc_required vc) -> exists h, q = CHeader h /\ In q (sc_components c) /\ rq_readable r' h) ->
  exists rem, verify ax_server a vc venv = Done (Ok (rem, sc_key_id c)).
Proof. exact reqwest_to_actix. Qed.
Print Assumptions C90_reqwest_to_actix.

(** The others are not: "@request-target", and in a request line with a path only "@target-uri",
    have another value than at the client, so that another text is checked than was signed ... *)
Theorem C90_targets_differ :
  forall (cr : client_request_like rq) (q : rq) (r : actix) (cc : canon_config) (d : derived) (n base base' : str) (si si' : signature_input),
  cr = rq_async \/ cr = rq_blocking -> ~ In " "%char (url_to_string (rq_url q)) -> ~ In "/"%char (u_scheme (rq_url q)) ->
  In (CDerived d) (cc_components cc) -> it_bare (dc_item d) = BString n ->
  n = $"@request-target" \/ n = $"@target-uri" /\ origin_form (ax_uri r) ->
  same_line_feeds (rl_derive (cr_rl cr) q) (ax_derive r) (cc_components cc) ->
  canonicalize (cr_rl cr) q cc = Done (Ok (base, si)) -> canonicalize ax_rl r cc = Done (Ok (base', si')) -> base <> base'.
Proof. exact target_texts_differ. Qed.
Print Assumptions C90_targets_differ.
(** ... and a request is rejected if a covered component has no value; "@authority", "@scheme" and
    "@query-params" have none there. *)
Theorem C90_no_value_rejected :
  forall (r : actix) (c : verifying_config) (env : verify_env) (input : str) (cc : canon_config) (d : derived) (n : str),
  header_value ax_server r $"signature-input" input -> input_reads input cc -> In (CDerived d) (cc_components cc) ->
  it_bare (dc_item d) = BString n -> (forall v, ~ actix_value r n v) -> forall rem kid, verify ax_server r c env <> Done (Ok (rem, kid)).
Proof. exact ax_unsupported. Qed.
Print Assumptions C90_no_value_rejected.
Theorem C90_origin_form : forall r : actix, origin_form (ax_uri r) ->
  forall n v, In n [$"@authority"; $"@scheme"; $"@query-params"] -> ~ actix_value r n v.
Proof. exact ax_origin. Qed.
Print Assumptions C90_origin_form.
(** An empty body with a Digest header is rejected, even if the digest is right. *)
Theorem C90_empty_body_rejected : forall (r : actix) (c : verifying_config) (env : verify_env) (dv : str), clocks_ok c env -> payload_is r [] ->
  header_value ax_server r $"digest" dv -> vc_validate_digest c = true -> forall rem kid, verify ax_server r c env <> Done (Ok (rem, kid)).
Proof. exact ax_empty_body. Qed.
Print Assumptions C90_empty_body_rejected.

(** A request sent to the server, in two chunks, and one that covers "@authority". *)
Definition t_rq : rq := Rq $"POST" s_url [($"content-type", $"text/plain")] (BBytes $"hello").
Definition t_conf : signing_config :=
  sc_set_components m_sconf [CDerived (dc_new AT_METHOD); CDerived (dc_new AT_PATH); CDerived (dc_new AT_QUERY); CHeader h_date; CHeader h_digest; CHeader $"x-absent"].
Definition t_signed : rq :=
  Rq $"POST" s_url [($"content-type", $"text/plain"); ($"date", $"Tue, 20 Apr 2021 02:07:55 GMT"); ($"host", $"example.com"); ($"digest", m_digest);
    ($"signature-input", s2b "sig=(""@method"" ""@path"" ""@query"" ""date"" ""digest"");alg=""toy"";created=1618884475;expires=1618884535;keyid=""k1""");
    ($"signature", $"sig=:En8K:")] (BBytes $"hello").
Definition t_server (q : rq) : actix :=
  Actix (rq_method q) (Uri None None $"/foo" (Some $"a=1&a=2&b=x%20y")) (rq_headers q) [Some $"he"; Some $"llo"].
(** Signed with this one component, and sent. *)
Definition t_with (n : str) : actix :=
  match sign rq_async t_rq (sc_set_components m_sconf [CDerived (dc_new n)]) m_senv with Done (r, _) => t_server r | Panic => t_server t_rq end.
Example C90_case :
  sign rq_async t_rq t_conf m_senv = Done (t_signed, Ok tt) /\ arrives t_signed (t_server t_signed)
  /\ nonempty_body t_signed /\ Forall component_rep (sc_components t_conf)
  /\ (forall q, In q (sc_components t_conf) -> ~ signature_header q /\ ~ needs_more q)
  /\ origin_form (ax_uri (t_server t_rq))
  /\ verify ax_server (t_server t_signed) m_vconf m_venv = Done (Ok (Some $"hello", $"k1"))
  /\ map (fun n => (verdict_of (verify ax_server (t_with n) (vc_set_require_digest m_vconf false) m_venv),
                    ax_derive (t_server t_rq) (CDerived (dc_new n))))
       [AT_PATH; AT_REQUEST_TARGET; AT_TARGET_URI; AT_AUTHORITY; AT_SCHEME]
     = [(Accepted $"k1", Done (Some $"/foo")); (Rejected, Done (Some $"POST /foo")); (Rejected, Done (Some $"/foo?a=1&a=2&b=x%20y"));
        (Rejected, Done None); (Rejected, Done None)].
Proof.
  split; [vm_compute; reflexivity|].
  split. { constructor; try reflexivity. exists [$"he"; $"llo"]. split; reflexivity. }
  split; [split; discriminate|].
  split; [repeat (constructor; [apply component_repb_rep; vm_compute; reflexivity|]); constructor|].
  split.
  { intros q Hq. cbn [In sc_components t_conf sc_set_components] in Hq.
    repeat (destruct Hq as [<-|Hq]; [split; [intros [F|F]; discriminate F|
      first [solve [intros []]|intros (n & F & I); injection F as <-; cbn [In reconstructed] in I; repeat (destruct I as [I|I]; [discriminate I|]); exact I]]|]). destruct Hq. }
  split; [split; [reflexivity|split; [reflexivity|now exists $"foo"]]|].
  split; [vm_compute; reflexivity|]. vm_compute. reflexivity.
Qed.
(** A GET with an empty body and its SHA-256 digest, signed. *)
Definition t_empty : rq := Rq $"GET" s_url [] (BBytes []).
Example C90_empty_case : let q := match sign rq_async t_empty t_conf m_senv with Done (r, _) => r | Panic => t_empty end in
  let a := Actix (rq_method q) (Uri None None $"/foo" (Some $"a=1&a=2&b=x%20y")) (rq_headers q) [] in
  let m := MockReq HTTP_11 (rq_method q) (rq_url q) $"/foo" (rq_headers q) (Some []) in
  clocks_ok m_vconf m_venv /\ payload_is a []
  /\ verdict_of (verify mr_server m m_vconf m_venv) = Accepted $"k1" /\ verdict_of (verify ax_server a m_vconf m_venv) = Rejected.
Proof.
  intros q a m. split; [vm_compute; intuition discriminate|]. split; [exists []; split; reflexivity|]. split; vm_compute; reflexivity.
Qed.
