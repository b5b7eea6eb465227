(** Properties of [verify] as a whole, over time, key histories and request types: C63 (in
    general), C67-C70. *)
From Verif Require Import SpecAuto SpecFlow FlowFacts GrowFacts RoundTrip LineFacts MockFacts CanonFacts SignFacts VerifyFacts ReqFacts Samples WitnessSign WitnessRound.

(** A signed request without a digest, and a verifying configuration that wants none. *)
Definition f_sconf : signing_config :=
  sc_set_compute_digest (sc_set_components m_sconf [CDerived (dc_new AT_METHOD); CHeader h_date; CHeader $"content-type"]) false.
Definition f_input : str := s2b "sig=(""@method"" ""date"" ""content-type"");alg=""toy"";created=1618884475;expires=1618884535;keyid=""k1""".
Definition f_signed : mock := mr_set_header (mr_set_header m_req h_signature_input f_input) h_signature $"sig=:Cccd:".
Definition f_vconf : verifying_config := vc_set_require_digest (vc_set_validate_date (vc_new m_keys) false) false.
Definition f_cc : canon_config :=
  CanonConfig (Some $"sig") [CDerived (dc_new AT_METHOD); CHeader h_date; CHeader $"content-type"]
    [($"alg", BString $"toy"); ($"created", BInteger 1618884475); ($"expires", BInteger 1618884535); ($"keyid", BString $"k1")].

(** ** C67: what [verify] returns, exactly *)
(** [verify] returns iff the Signature-Input header, if any, can be read, and then returns
    the result of the first case of [verify_outcome] (SpecFlow.v) that applies: the cases
    exclude each other and leave none out. *)
Theorem C67_verify_is_specified :
  forall S Rem (sr : server_request_like S Rem) (r : S) (c : verifying_config) (env : verify_env),
  clocks_ok c env -> total_request (sr_rl sr) r ->
  (forall d, In (CDerived d) (vc_required c) -> exists t, item_text (dc_item d) t) ->
  forall res, verify sr r c env = Done res <-> input_readable sr r /\ verify_outcome sr r c env res.
Proof. exact @verify_outcome_iff. Qed.
Print Assumptions C67_verify_is_specified.
(** The same when it panics, and the result is unique. *)
Theorem C67_verify_is_a_function :
  forall S Rem (sr : server_request_like S Rem) (r : S) (c : verifying_config) (env : verify_env),
  clocks_ok c env -> total_request (sr_rl sr) r ->
  (forall d, In (CDerived d) (vc_required c) -> exists t, item_text (dc_item d) t) ->
  (verify sr r c env = Panic <-> ~ input_readable sr r)
  /\ (input_readable sr r -> exists res, verify_outcome sr r c env res /\ forall res', verify_outcome sr r c env res' -> res' = res).
Proof. exact @verify_function. Qed.
Print Assumptions C67_verify_is_a_function.
Example C67_case : clocks_ok f_vconf m_venv /\ total_request mr_rl f_signed /\ vc_required f_vconf = []
  /\ verify mr_server f_signed f_vconf m_venv = Done (Ok (tt, $"k1"))
  /\ verify mr_server (mr_set_header f_signed $"date" $"now") f_vconf m_venv = Done (Err tt)
  /\ verify mr_server (mr_set_header f_signed $"signature-input" $"sig=1") f_vconf m_venv = Panic.
Proof.
  split; [vm_compute; intuition discriminate|]. split; [apply mr_total|]. split; [reflexivity|].
  split; [vm_compute; reflexivity|]. split; vm_compute; reflexivity.
Qed.

(** ** C68: acceptance over time *)
(** A request accepted once is accepted at another time iff that time is in the window its
    own parameters and the leeway give. *)
Theorem C68_window :
  forall S Rem (sr : server_request_like S Rem) (r : S) (c : verifying_config) (e1 e2 : verify_env) (rem : Rem) kid input cc,
  clocks_ok c e1 -> clocks_ok c e2 -> verify sr r c e1 = Done (Ok (rem, kid)) ->
  header_value sr r $"signature-input" input -> input_reads input cc ->
  (verify sr r c e2 = Done (Ok (rem, kid)) <-> in_window c (cc_params cc) e2).
Proof. exact @window. Qed.
Print Assumptions C68_window.
(** The times of acceptance form an interval, and the result is the same throughout. *)
Theorem C68_interval :
  forall S Rem (sr : server_request_like S Rem) (r : S) (c : verifying_config) (e1 e e2 : verify_env) (rem1 rem2 : Rem) k1 k2,
  clocks_ok c e1 -> clocks_ok c e2 -> moment_between e1 e e2 ->
  verify sr r c e1 = Done (Ok (rem1, k1)) -> verify sr r c e2 = Done (Ok (rem2, k2)) ->
  verify sr r c e = Done (Ok (rem1, k1)).
Proof. exact @interval. Qed.
Print Assumptions C68_interval.
(** Without an expiry and without date validation a request once accepted is accepted for
    ever: nothing else stops a replay. *)
Theorem C68_replay :
  forall S Rem (sr : server_request_like S Rem) (r : S) (c : verifying_config) (e1 e2 : verify_env) (rem : Rem) kid input cc,
  vc_validate_date c = false -> sys_clock_ok (ve_sys e1) -> sys_clock_ok (ve_sys e2) -> (ve_sys e1 <= ve_sys e2)%Z ->
  header_value sr r $"signature-input" input -> input_reads input cc ->
  (forall t, value_of $"expires" (cc_params cc) <> Some (BInteger t)) ->
  verify sr r c e1 = Done (Ok (rem, kid)) -> verify sr r c e2 = Done (Ok (rem, kid)).
Proof. exact @replay. Qed.
Print Assumptions C68_replay.
Definition f_late : verify_env := VerifyEnv 1618884535000000000 1618884535000000000.
Definition f_forever : mock :=
  mr_set_header (mr_set_header m_req h_signature_input (s2b "sig=();alg=""toy"";keyid=""k1""")) h_signature $"sig=:zq05:".
Example C68_case : clocks_ok f_vconf m_venv /\ clocks_ok f_vconf f_late
  /\ moment_between m_venv (VerifyEnv 1618884500000000000 1618884500000000000) f_late
  /\ header_value mr_server f_signed $"signature-input" f_input /\ input_reads f_input f_cc
  /\ map (fun s => verify mr_server f_signed f_vconf (VerifyEnv s s)) [1618884475000000000; 1618884535000000000; 1618884536000000000]%Z
     = [Done (Ok (tt, $"k1")); Done (Ok (tt, $"k1")); Done (Err tt)]
  /\ in_window f_vconf (cc_params f_cc) f_late
  /\ verify mr_server f_forever f_vconf (VerifyEnv 99999999999999999999 0) = Done (Ok (tt, $"k1")).
Proof.
  split; [vm_compute; intuition discriminate|]. split; [vm_compute; intuition discriminate|].
  split; [unfold moment_between; cbn [ve_sys ve_utc m_venv f_late]; lia|]. split; [vm_compute; reflexivity|].
  split; [apply cc_parse_iff; vm_compute; reflexivity|]. split; [vm_compute; reflexivity|]. split; [|vm_compute; reflexivity].
  split; [|split; [|discriminate]]; intros t H; vm_compute in H; injection H as <-; vm_compute; discriminate.
Qed.

(** ** C69: adding and revoking keys *)
(** Acceptance means a key added since the key id was last cleared validates the request. *)
Theorem C69_current_keys :
  forall S Rem (sr : server_request_like S Rem) (r : S) (c : verifying_config) (env : verify_env)
    (init : list (str * http_verifier)) (calls : list key_call) (rem : Rem) kid,
  verify sr r (with_keys c (fold_left key_do calls (skp_new init))) env = Done (Ok (rem, kid)) ->
  exists ks k cc sig base,
    keys_since kid (map (fun kv => AddKey (fst kv) (snd kv)) init ++ calls) ks /\ In k ks
    /\ signature_headers sr r cc sig kid
    /\ signature_base (rl_derive (sr_rl sr) r) (cc_components cc) (cc_params cc) base
    /\ vf_verify k base sig = true.
Proof. exact @current_keys. Qed.
Print Assumptions C69_current_keys.
(** After [remove_all] of a key id or [clear], and until a key is added under that id, no
    request is accepted for it. *)
Theorem C69_revoked :
  forall S Rem (sr : server_request_like S Rem) (r : S) (c : verifying_config) (env : verify_env)
    (m : simple_keys) (calls calls' : list key_call) (f : key_call) (rem : Rem) kid,
  forgets kid f -> Forall (fun x => forall k, x <> AddKey kid k) calls' ->
  verify sr r (with_keys c (fold_left key_do (calls ++ f :: calls') m)) env <> Done (Ok (rem, kid)).
Proof. exact @revoked. Qed.
Print Assumptions C69_revoked.
(** Calls for other key ids change no result. *)
Theorem C69_other_keys :
  forall S Rem (sr : server_request_like S Rem) (r : S) (c : verifying_config) (env : verify_env)
    (m : simple_keys) (calls : list key_call) kid,
  names_key sr r kid -> Forall (fun x => ~ concerns kid x) calls ->
  verify sr r (with_keys c (fold_left key_do calls m)) env = verify sr r (with_keys c m) env.
Proof. exact @other_keys. Qed.
Print Assumptions C69_other_keys.
(** Rotation: adding keys never withdraws acceptance. *)
Theorem C69_rotation :
  forall S Rem (sr : server_request_like S Rem) (r : S) (c : verifying_config) (env : verify_env)
    (m : simple_keys) (calls : list key_call) (rem : Rem) kid,
  clocks_ok c env -> Forall (fun x => ~ forgets kid x) calls ->
  verify sr r (with_keys c m) env = Done (Ok (rem, kid)) ->
  exists rem', verify sr r (with_keys c (fold_left key_do calls m)) env = Done (Ok (rem', kid)).
Proof. exact @rotation. Qed.
Print Assumptions C69_rotation.
Example C69_case :
  let good := AddKey $"k1" (toy_verifier $"secret") in
  let other := AddKey $"k1" (toy_verifier $"old") in
  let ran calls := verify mr_server f_signed (with_keys f_vconf (fold_left key_do calls [])) m_venv in
  names_key mr_server f_signed $"k1"
  /\ map ran [[]; [good]; [other; good]; [good; RemoveKeys $"k1"]; [good; ClearKeys]; [good; RemoveKeys $"k2"]; [good; RemoveKeys $"k1"; other; good]]
     = [Done (Err tt); Done (Ok (tt, $"k1")); Done (Ok (tt, $"k1")); Done (Err tt); Done (Err tt); Done (Ok (tt, $"k1")); Done (Ok (tt, $"k1"))].
Proof.
  cbv zeta. split; [|vm_compute; reflexivity]. exists f_input, f_cc. split; [vm_compute; reflexivity|].
  split; [apply cc_parse_iff; vm_compute; reflexivity|reflexivity].
Qed.

(** ** C70: signed with reqwest, verified as a MockRequest *)
(** [same_message]: the same method, URL, headers and body.  Everything the reqwest client
    signs, except "@authority" and, in the asynchronous client, streamed bodies, is
    accepted. *)
Theorem C70_reqwest_to_mock :
  forall (cr : client_request_like rq) (r r' : rq) (m : mock) (c : signing_config) (env : sign_env) (vc : verifying_config)
    (venv : verify_env) (k : http_verifier),
  cr = rq_async /\ not_streamed r \/ cr = rq_blocking ->
  sys_clock_ok (se_sys env) -> sign cr r c env = Done (r', Ok tt) -> same_message r' m ->
  sc_label c = $"sig" -> sc_nonce c <> Some [] ->
  Forall component_rep (sc_components c) -> (forall q, In q (sc_components c) -> ~ signature_header q /\ ~ is_authority q) ->
  first_value (rq_headers r) $"digest" = None -> sc_compute_digest c = true ->
  sc_digest c = sha256_digest \/ sc_digest c = sha512_digest -> vc_digests vc = default_digest_provider ->
  matching (sc_signature c) (se_rnd env) k -> In k (vc_keys vc (sc_key_id c)) ->
  sys_clock_ok (ve_sys venv) -> vc_validate_date vc = false ->
  (forall t, created_at c (seconds (se_sys env)) = Some t -> (t <= seconds (ve_sys venv))%Z) ->
  (forall t, expires_at c (seconds (se_sys env)) = Some t -> (seconds (ve_sys venv) <= t)%Z) ->
  (forall q, In q (vc_required vc) -> exists h, q = CHeader h /\ In q (sc_components c) /\ rq_readable r' h) ->
  verify mr_server m vc venv = Done (Ok (tt, sc_key_id c)).
Proof. exact interop. Qed.
Print Assumptions C70_reqwest_to_mock.
(** With "@authority" covered, no MockRequest carrying the Signature-Input header is
    accepted, whatever the verifier. *)
Theorem C70_authority_never_verifies :
  forall (cr : client_request_like rq) (r r' : rq) (m : mock) (c : signing_config) (env : sign_env) (vc : verifying_config)
    (venv : verify_env) (h : str) (q : component),
  cr = rq_async \/ cr = rq_blocking -> sys_clock_ok (se_sys env) -> sign cr r c env = Done (r', Ok tt) ->
  first_value (mr_headers m) $"signature-input" = first_value (rq_headers r') $"signature-input" ->
  sc_nonce c <> Some [] -> Forall component_rep (sc_components c) ->
  is_authority q -> In q (sc_components c) -> u_host (rq_url r) = Some h ->
  forall kid, verify mr_server m vc venv <> Done (Ok (tt, kid)).
Proof. exact authority_lost. Qed.
Print Assumptions C70_authority_never_verifies.
(** A streamed body of the asynchronous client gets no digest, so a verifier that requires
    one rejects the request. *)
Theorem C70_streamed_body_rejected :
  forall (r r' : rq) (m : mock) (c : signing_config) (env : sign_env) (vc : verifying_config) (venv : verify_env) (o : option str),
  sys_clock_ok (se_sys env) -> sign rq_async r c env = Done (r', Ok tt) -> same_message r' m -> rq_bod r = BStream o ->
  first_value (rq_headers r) $"digest" = None -> vc_require_digest vc = true -> clocks_ok vc venv ->
  forall kid, verify mr_server m vc venv <> Done (Ok (tt, kid)).
Proof. exact streamed_rejected. Qed.
Print Assumptions C70_streamed_body_rejected.
Definition f_rq (b : rq_body) : rq := Rq $"POST" s_url [($"content-type", $"text/plain"); ($"x", $"1"); ($"x", $"2")] b.
Definition f_rqconf : signing_config :=
  sc_set_components m_sconf [CDerived (dc_new AT_METHOD); s_qp $"a"; CHeader h_date; CHeader h_host; CHeader h_digest; CHeader $"x-absent"].
Definition f_mock (r : rq) : mock :=
  MockReq HTTP_11 (rq_method r) (rq_url r) $"/foo" (rq_headers r)
    match rq_bod r with BNone => None | BBytes b => Some b | BStream o => o end.
Definition f_out : rq :=
  Rq $"POST" s_url [($"content-type", $"text/plain"); ($"x", $"1"); ($"x", $"2"); ($"date", $"Tue, 20 Apr 2021 02:07:55 GMT");
    ($"host", $"example.com"); ($"digest", m_digest);
    ($"signature-input", s2b "sig=(""@method"" ""@query-params"";name=""a"" ""date"" ""host"" ""digest"");alg=""toy"";created=1618884475;expires=1618884535;keyid=""k1""");
    ($"signature", $"sig=:BZb8:")] (BBytes $"hello").
Definition f_stream : rq :=
  Rq $"POST" s_url [($"content-type", $"text/plain"); ($"x", $"1"); ($"x", $"2"); ($"date", $"Tue, 20 Apr 2021 02:07:55 GMT");
    ($"host", $"example.com");
    ($"signature-input", s2b "sig=(""@method"" ""@query-params"";name=""a"" ""date"" ""host"");alg=""toy"";created=1618884475;expires=1618884535;keyid=""k1""");
    ($"signature", $"sig=:fFuZ:")] (BStream (Some $"hello")).
Example C70_case :
  sign rq_async (f_rq (BBytes $"hello")) f_rqconf m_senv = Done (f_out, Ok tt) /\ same_message f_out (f_mock f_out)
  /\ Forall component_rep (sc_components f_rqconf)
  /\ (forall q, In q (sc_components f_rqconf) -> ~ signature_header q /\ ~ is_authority q)
  /\ matching (sc_signature f_rqconf) (se_rnd m_senv) (toy_verifier $"secret")
  /\ verify mr_server (f_mock f_out) m_vconf m_venv = Done (Ok (tt, $"k1"))
  /\ sign rq_async (f_rq (BStream (Some $"hello"))) f_rqconf m_senv = Done (f_stream, Ok tt) /\ same_message f_stream (f_mock f_stream).
Proof.
  split; [vm_compute; reflexivity|]. split; [now constructor|].
  split; [repeat (constructor; [apply component_repb_rep; vm_compute; reflexivity|]); constructor|].
  split.
  { intros q Hq. cbn [In sc_components f_rqconf sc_set_components] in Hq.
    repeat (destruct Hq as [<-|Hq]; [split; [intros [F|F]; discriminate F|intros (p & F); discriminate F]|]). destruct Hq. }
  split; [apply hmac_matching|]. split; [vm_compute; reflexivity|]. split; [vm_compute; reflexivity|now constructor].
Qed.

(** ** C63, in general *)
(** Signing succeeds for every list drawn from the components it succeeds for, in any order
    and with any repetitions; C09 says the result is accepted. *)
Theorem C63_any_relisting_is_signed :
  forall R (cr : client_request_like R), client_laws cr ->
  forall (r r' : R) (c : signing_config) (env : sign_env) (date : str) (l : list component),
  auto_safe cr r c env -> (sc_add_date c = true -> http_date (seconds (se_utc env)) date) ->
  Forall proper_component (sc_components c) -> (forall m, legal_value (signature_text c (se_rnd env) m)) ->
  sign cr r c env = Done (r', Ok tt) -> incl l (sc_components c) ->
  exists r2, sign cr r (sc_set_components c l) env = Done (r2, Ok tt).
Proof. exact @relisted. Qed.
Print Assumptions C63_any_relisting_is_signed.
Example C63_relisted_case :
  auto_safe mr_client m_req f_sconf m_senv /\ Forall proper_component (sc_components f_sconf)
  /\ (forall m, legal_value (signature_text f_sconf (se_rnd m_senv) m))
  /\ sign mr_client m_req f_sconf m_senv = Done (f_signed, Ok tt)
  /\ incl [CHeader h_date; CHeader h_date; CDerived (dc_new AT_METHOD)] (sc_components f_sconf).
Proof.
  split; [exact (proj1 m_safe)|]. split; [|split; [|split; [vm_compute; reflexivity|]]].
  - cbn [sc_components f_sconf sc_set_components sc_set_compute_digest].
    repeat (constructor; [apply component_rep_proper, component_repb_rep; vm_compute; reflexivity|]). constructor.
  - intro m. apply plain_legal, signature_text_plain; [apply plain_iff; reflexivity|]. apply b64_plain.
  - cbn [sc_components f_sconf sc_set_components sc_set_compute_digest]. intros q Hq. cbn [In] in *. tauto.
Qed.

(** ** C73: signing a request again with its earlier signature covered *)
(** [sign] covers the earlier Signature or Signature-Input header and then replaces it: what
    it returns is accepted only if it replaced the header by the value it had, or the
    signature of one base is accepted for another. *)
Theorem C73_replaced_headers :
  forall (r r' : mock) (c : signing_config) (env : sign_env) (vc : verifying_config) (venv : verify_env) (kid : str),
  sys_clock_ok (se_sys env) -> sign mr_client r c env = Done (r', Ok tt) ->
  Forall component_rep (sc_components c) -> sc_nonce c <> Some [] -> ~ In "="%char (sc_label c) -> plain (sc_label c) ->
  (forall m, let sig := sg_sign (sc_signature c) (se_rnd env) m in plain sig /\ clean_signature sig) ->
  verify mr_server r' vc venv = Done (Ok (tt, kid)) ->
  (forall q v, In q (sc_components c) -> signature_header q -> mr_derive r q = Done (Some v) -> mr_derive r' q = Done (Some v))
  \/ exists m1 m2 k, two_bases (signed_view mr_rl r r') (mr_derive r') c (seconds (se_sys env)) m1 m2
      /\ In k (vc_keys vc (sc_key_id c)) /\ vf_verify k m2 (sg_sign (sc_signature c) (se_rnd env) m1) = true.
Proof. exact countersign. Qed.
Print Assumptions C73_replaced_headers.
(** With an HMAC key the latter is a collision. *)
Theorem C73_replaced_headers_hmac :
  forall (r r' : mock) (c : signing_config) (env : sign_env) (vc : verifying_config) (venv : verify_env) (kid key : str),
  sys_clock_ok (se_sys env) -> sign mr_client r c env = Done (r', Ok tt) ->
  Forall component_rep (sc_components c) -> sc_nonce c <> Some [] -> ~ In "="%char (sc_label c) -> plain (sc_label c) ->
  sc_signature c = hmac_sha256_signer key -> (forall k, In k (vc_keys vc (sc_key_id c)) -> k = hmac_sha256_verifier key) ->
  verify mr_server r' vc venv = Done (Ok (tt, kid)) ->
  (forall q v, In q (sc_components c) -> signature_header q -> mr_derive r q = Done (Some v) -> mr_derive r' q = Done (Some v))
  \/ exists m1 m2, two_bases (signed_view mr_rl r r') (mr_derive r') c (seconds (se_sys env)) m1 m2 /\ hmac sha256 64 key m1 = hmac sha256 64 key m2.
Proof. exact countersign_hmac. Qed.
Print Assumptions C73_replaced_headers_hmac.
(** An accepted request is signed again: accepted if its earlier signature is not covered,
    rejected if it is. *)
Theorem C73_countersigning_refuted :
  exists (r : mock) (c : signing_config) (env : sign_env) (vc : verifying_config) (venv : verify_env),
  let again l := match sign mr_client r (sc_set_components c l) env with
                 | Done (r', Ok _) => verify mr_server r' vc venv
                 | _ => Panic
                 end in
  verify mr_server r vc venv = Done (Ok (tt, sc_key_id c))
  /\ again [CDerived (dc_new AT_METHOD)] = Done (Ok (tt, sc_key_id c))
  /\ again [CDerived (dc_new AT_METHOD); CHeader $"signature"] = Done (Err tt)
  /\ again [CDerived (dc_new AT_METHOD); CHeader $"signature-input"] = Done (Err tt).
Proof. exists f_signed, f_sconf, m_senv, f_vconf, m_venv. vm_compute. intuition reflexivity. Qed.
Print Assumptions C73_countersigning_refuted.
(** The value may stay the same: a second call in the same second. *)
Definition f_twice : signing_config := sc_set_components f_sconf [CDerived (dc_new AT_METHOD); CHeader $"signature-input"].
Example C73_case :
  let input := s2b "sig=(""@method"" ""signature-input"");alg=""toy"";created=1618884475;expires=1618884535;keyid=""k1""" in
  let r := mr_set_header m_req $"signature-input" input in
  sys_clock_ok (se_sys m_senv)
  /\ exists r', sign mr_client r f_twice m_senv = Done (r', Ok tt) /\ mr_derive r' (CHeader $"signature-input") = Done (Some input)
     /\ verify mr_server r' f_vconf m_venv = Done (Ok (tt, $"k1")).
Proof.
  cbv zeta. split; [vm_compute; intuition discriminate|]. eexists. split; [vm_compute; reflexivity|]. split; vm_compute; reflexivity.
Qed.
