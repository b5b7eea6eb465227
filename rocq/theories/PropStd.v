(** C64-C66: the standards behind digests and MACs; what [sign] does, in full. *)
From Verif Require Import SpecAuto Samples Tests ShaStd AutoFacts SignMore WitnessSign WitnessRound.

(** C64: SHA-256, SHA-512 and HMAC follow FIPS 180-4 and RFC 2104 (SpecSha.v).  The bounds are
    the largest messages these standards define. *)
Theorem C64_sha256 : forall m d : str, (8 * N.of_nat (List.length m) < 2 ^ 64)%N -> (d = sha256 m <-> digest SHA_256 m d).
Proof. exact sha256_iff. Qed.
Print Assumptions C64_sha256.
Theorem C64_sha512 : forall m d : str, (8 * N.of_nat (List.length m) < 2 ^ 128)%N -> (d = sha512 m <-> digest SHA_512 m d).
Proof. exact sha512_iff. Qed.
Print Assumptions C64_sha512.
Theorem C64_digest_texts : forall (a : http_digest) (b d : str),
  (a = sha256_digest -> (8 * N.of_nat (List.length b) < 2 ^ 64)%N -> (d = dg_digest a b <-> exists x, digest SHA_256 b x /\ d = b64_bits x))
  /\ (a = sha512_digest -> (8 * N.of_nat (List.length b) < 2 ^ 128)%N -> (d = dg_digest a b <-> exists x, digest SHA_512 b x /\ d = b64_bits x)).
Proof. exact digest_text. Qed.
Print Assumptions C64_digest_texts.
Theorem C64_hmac_texts : forall (key msg sig : str) (rnd : N),
  ((8 * N.of_nat (List.length key) < 2 ^ 64)%N -> (8 * N.of_nat (64 + List.length msg) < 2 ^ 64)%N ->
     (sig = sg_sign (hmac_sha256_signer key) rnd msg <-> exists tag, hmac_tag (digest SHA_256) 64 key msg tag /\ sig = b64_bits tag)
     /\ (vf_verify (hmac_sha256_verifier key) msg sig = true <-> exists tag, hmac_tag (digest SHA_256) 64 key msg tag /\ sig = b64_bits tag))
  /\ ((8 * N.of_nat (List.length key) < 2 ^ 128)%N -> (8 * N.of_nat (128 + List.length msg) < 2 ^ 128)%N ->
     (sig = sg_sign (hmac_sha512_signer key) rnd msg <-> exists tag, hmac_tag (digest SHA_512) 128 key msg tag /\ sig = b64_bits tag)
     /\ (vf_verify (hmac_sha512_verifier key) msg sig = true <-> exists tag, hmac_tag (digest SHA_512) 128 key msg tag /\ sig = b64_bits tag)).
Proof. exact hmac_text. Qed.
Print Assumptions C64_hmac_texts.
Example C64_case :
  (exists d, digest SHA_256 $"abc" d /\ b64_bits d = $"ungWv48Bz+pBQUDeXa4iI7ADYaOWF3qctBD/YfIAFa0=")
  /\ exists tag, hmac_tag (digest SHA_256) 64 $"password" $"hello" tag /\ b64_bits tag = $"euYV5phWfl4VEt2BQOdAvU1l36TbGV2AyjJ95jArSmM=".
Proof.
  split.
  - exists (sha256 $"abc"). split; [now apply sha256_iff|]. rewrite SpecFacts.b64_bits_encode. exact sha256_abc.
  - exists (mac_sha256 $"password" $"hello"). split; [now apply mac_sha256_iff|]. rewrite SpecFacts.b64_bits_encode. exact hmac256_hello.
Qed.

(** C65: the values of the automatic headers.  [completed]: a Date, Host or Digest header without
    a value gets the one configured; everything else is as before. *)
Theorem C65_completed :
  forall R (cr : client_request_like R), client_laws cr ->
  forall (r : R) (c : signing_config) (env : sign_env) (date : str),
  auto_safe cr r c env -> (sc_add_date c = true -> http_date (seconds (se_utc env)) date) ->
  forall (r' : R) (res : result unit error), sign cr r c env = Done (r', res) ->
  forall q, q <> CHeader $"signature" -> q <> CHeader $"signature-input" ->
  rl_derive (cr_rl cr) r' q = completed cr r c date q.
Proof. intros R cr L r c env date S D r' res H q N1 N2. exact (sign_completed cr L r c env date S D r' res H q (fun X => match X with or_introl E => N1 E | or_intror E => N2 E end)). Qed.
Print Assumptions C65_completed.
Theorem C65_reqwest : forall (r r' : rq) (c : signing_config) (env : sign_env) (res : result unit error),
  sc_digest c = sha256_digest \/ sc_digest c = sha512_digest ->
  sys_clock_ok (se_sys env) -> (sc_add_date c = true -> utc_clock_ok (se_utc env)) -> (forall h, u_host (rq_url r) = Some h -> plain h) ->
  sign rq_async r c env = Done (r', res) ->
  (forall h, sc_add_host c = true -> hm_get (rq_headers r) $"host" = None -> u_host (rq_url r) = Some h -> hm_get (rq_headers r') $"host" = Some h)
  /\ (forall b t, sc_compute_digest c = true -> hm_get (rq_headers r) $"digest" = None -> rq_bod r = BBytes b ->
        standard_digest (sc_digest c) b t -> hm_get (rq_headers r') $"digest" = Some t).
Proof. exact rq_async_values. Qed.
Print Assumptions C65_reqwest.
Theorem C65_reqwest_blocking : forall (r r' : rq) (c : signing_config) (env : sign_env) (res : result unit error),
  sc_digest c = sha256_digest \/ sc_digest c = sha512_digest ->
  sys_clock_ok (se_sys env) -> (sc_add_date c = true -> utc_clock_ok (se_utc env)) -> (forall h, u_host (rq_url r) = Some h -> plain h) ->
  sign rq_blocking r c env = Done (r', res) ->
  (forall h, sc_add_host c = true -> hm_get (rq_headers r) $"host" = None -> u_host (rq_url r) = Some h -> hm_get (rq_headers r') $"host" = Some h)
  /\ (forall b t, sc_compute_digest c = true -> hm_get (rq_headers r) $"digest" = None -> rq_bod r = BBytes b \/ rq_bod r = BStream (Some b) ->
        standard_digest (sc_digest c) b t -> hm_get (rq_headers r') $"digest" = Some t).
Proof. exact rq_blocking_values. Qed.
Print Assumptions C65_reqwest_blocking.
(** The requests of the validator know no host. *)
Theorem C65_mock : forall (r r' : mock) (c : signing_config) (env : sign_env) (res : result unit error),
  sc_digest c = sha256_digest \/ sc_digest c = sha512_digest ->
  sys_clock_ok (se_sys env) -> (sc_add_date c = true -> utc_clock_ok (se_utc env)) ->
  sign mr_client r c env = Done (r', res) ->
  (hm_get (mr_headers r) $"host" = None -> hm_get (mr_headers r') $"host" = None)
  /\ (forall b t, sc_compute_digest c = true -> hm_get (mr_headers r) $"digest" = None -> mr_body r = Some b ->
        standard_digest (sc_digest c) b t -> hm_get (mr_headers r') $"digest" = Some t).
Proof. exact mock_values. Qed.
Print Assumptions C65_mock.
(** Without a body that is there to be read, no Digest header is added; nor a Host header without
    a host. *)
Theorem C65_reqwest_no_digest : forall (cr : client_request_like rq) (r r' : rq) (c : signing_config) (env : sign_env) (res : result unit error),
  cr = rq_async /\ (forall b, rq_bod r <> BBytes b) \/ cr = rq_blocking /\ (rq_bod r = BNone \/ rq_bod r = BStream None) \/ (cr = rq_async \/ cr = rq_blocking) /\ sc_compute_digest c = false ->
  sc_digest c = sha256_digest \/ sc_digest c = sha512_digest ->
  sys_clock_ok (se_sys env) -> (sc_add_date c = true -> utc_clock_ok (se_utc env)) -> (forall h, u_host (rq_url r) = Some h -> plain h) ->
  sign cr r c env = Done (r', res) ->
  rq_derive r (CHeader $"digest") = Done None -> rq_derive r' (CHeader $"digest") = Done None.
Proof. exact rq_not_added. Qed.
Print Assumptions C65_reqwest_no_digest.
Theorem C65_reqwest_no_host : forall (cr : client_request_like rq) (r r' : rq) (c : signing_config) (env : sign_env) (res : result unit error),
  cr = rq_async \/ cr = rq_blocking -> sc_add_host c = false \/ u_host (rq_url r) = None ->
  sc_digest c = sha256_digest \/ sc_digest c = sha512_digest ->
  sys_clock_ok (se_sys env) -> (sc_add_date c = true -> utc_clock_ok (se_utc env)) -> (forall h, u_host (rq_url r) = Some h -> plain h) ->
  sign cr r c env = Done (r', res) ->
  rq_derive r (CHeader $"host") = Done None -> rq_derive r' (CHeader $"host") = Done None.
Proof. exact rq_host_not_added. Qed.
Print Assumptions C65_reqwest_no_host.
Theorem C65_mock_no_digest : forall (r r' : mock) (c : signing_config) (env : sign_env) (res : result unit error),
  mr_body r = None \/ sc_compute_digest c = false -> sc_digest c = sha256_digest \/ sc_digest c = sha512_digest ->
  sys_clock_ok (se_sys env) -> (sc_add_date c = true -> utc_clock_ok (se_utc env)) -> sign mr_client r c env = Done (r', res) ->
  hm_get (mr_headers r) $"digest" = None -> hm_get (mr_headers r') $"digest" = None.
Proof. exact mock_not_added. Qed.
Print Assumptions C65_mock_no_digest.
Example C65_no_body_case : forall b, In b [BNone; BStream (Some $"x")] -> exists r',
  sign rq_async (Rq $"GET" s_url [] b) (sc_new $"sig" $"k1" (toy_signer $"secret")) m_senv = Done (r', Ok tt) /\ hm_get (rq_headers r') $"digest" = None.
Proof. intros b [<- | [<- | []]]; eexists; (split; [vm_compute; reflexivity|reflexivity]). Qed.
(** A request with a URL only: all three headers are added. *)
Definition std_req : rq := Rq $"POST" s_url [] (BBytes $"abc").
Definition std_conf : signing_config := sc_new $"sig" $"k1" (toy_signer $"secret").
Definition std_digest : str := $"SHA-256=ungWv48Bz+pBQUDeXa4iI7ADYaOWF3qctBD/YfIAFa0=".
Example C65_case :
  sc_digest std_conf = sha256_digest /\ standard_digest sha256_digest $"abc" std_digest
  /\ sign rq_async std_req std_conf m_senv
     = Done (Rq $"POST" s_url
               [($"date", $"Tue, 20 Apr 2021 02:07:55 GMT"); ($"host", $"example.com"); ($"digest", std_digest);
                ($"signature-input", s2b "sig=();alg=""toy"";keyid=""k1"""); ($"signature", $"sig=:zq05:")] (BBytes $"abc"), Ok tt).
Proof.
  split; [reflexivity|]. split; [|vm_compute; reflexivity].
  change std_digest with ($"SHA-256=" ++ $"ungWv48Bz+pBQUDeXa4iI7ADYaOWF3qctBD/YfIAFa0="). rewrite <- sha256_abc, <- SpecFacts.b64_bits_encode.
  constructor; [reflexivity|]. now apply sha256_iff.
Qed.

(** C66: which result [sign] has, for every configuration and request. *)
Theorem C66_outcome :
  forall R (cr : client_request_like R), client_laws cr ->
  forall (r : R) (c : signing_config) (env : sign_env) (date : str),
  auto_safe cr r c env -> (sc_add_date c = true -> http_date (seconds (se_utc env)) date) ->
  Forall proper_component (sc_components c) ->
  forall res, (exists r', sign cr r c env = Done (r', res)) <-> sign_outcome cr r c date (seconds (se_sys env)) (se_rnd env) res.
Proof. exact @outcome_iff. Qed.
Print Assumptions C66_outcome.
Theorem C66_outcome_unique :
  forall R (cr : client_request_like R) (r : R) (c : signing_config) (env : sign_env) (date : str) (rnd : N) res res',
  sign_outcome cr r c date (seconds (se_sys env)) rnd res -> sign_outcome cr r c date (seconds (se_sys env)) rnd res' -> res = res'.
Proof. exact @outcome_fun. Qed.
Print Assumptions C66_outcome_unique.
(** [signed] hands out the request [sign] made, or its error. *)
Theorem C66_signed :
  forall R (cr : client_request_like R) (r : R) (c : signing_config) (env : sign_env),
  (forall r', signed cr r c env = Done (Ok r') <-> sign cr r c env = Done (r', Ok tt))
  /\ (forall e, signed cr r c env = Done (Err e) <-> exists r', sign cr r c env = Done (r', Err e))
  /\ (signed cr r c env = Panic <-> sign cr r c env = Panic).
Proof. exact @signed_iff. Qed.
Print Assumptions C66_signed.
(** What a successful call writes: the exact text of both headers. *)
Theorem C66_headers :
  forall R (cr : client_request_like R), client_laws cr ->
  forall (r : R) (c : signing_config) (env : sign_env) (date : str),
  auto_safe cr r c env -> (sc_add_date c = true -> http_date (seconds (se_utc env)) date) ->
  forall r', sign cr r c env = Done (r', Ok tt) ->
  let now := seconds (se_sys env) in
  exists cs base sp, to_sign cr r c date now cs base
    /\ inner_text (map component_item cs) (stamp c now) sp
    /\ rl_derive (cr_rl cr) r' (CHeader $"signature-input") = Done (Some ($"sig=" ++ sp))
    /\ (plain (signature_text c (se_rnd env) base) ->
        rl_derive (cr_rl cr) r' (CHeader $"signature") = Done (Some (signature_text c (se_rnd env) base))).
Proof. exact @sign_writes. Qed.
Print Assumptions C66_headers.
Example C66_case :
  client_laws mr_client /\ auto_safe mr_client m_req m_sconf m_senv /\ Forall proper_component (sc_components m_sconf)
  /\ (exists date, http_date (seconds (se_utc m_senv)) date)
  /\ sign mr_client m_req m_sconf m_senv = Done (m_signed, Ok tt)
  /\ snd (sign_or mr_client m_req (sc_set_skip_missing m_sconf false) m_senv) = Err ECanonicalize.
Proof.
  split; [exact mr_client_laws|]. split; [apply m_safe|]. split.
  { eapply Forall_impl; [|apply m_safe]. exact component_rep_proper. }
  split. { exists $"Tue, 20 Apr 2021 02:07:55 GMT". exact (DateFacts.fmt_is_http_date 1618884475 ltac:(lia)). }
  split; [exact m_sign|]. vm_compute. reflexivity.
Qed.
