(** C85: keys and libraries that fail to sign. *)
From Verif Require Import SpecFail Samples FailFacts WitnessSign.

(** When [http_sign] of the openssl back end panics: exactly for the keys that are not plain RSA
    keys of at least 62 bytes (SHA-256), resp. 94 bytes (SHA-512), whatever the message.  The key
    types [RsaPss*] are no exception. *)
Theorem C85_openssl_sign_panics : forall (o : ossl) (t : key_type) (h : md) (k : pkey) (msg : str),
  openssl_rules o -> openssl_md t = Some h ->
  (ossl_http_sign o h k msg = Panic
   <-> ~ exists n x, k = PRsa n x /\ ((if match t with RsaSha256 | RsaPssSha256 => true | _ => false end then 62 else 94) <= n)%N).
Proof. exact sign_panics_by_type. Qed.
Print Assumptions C85_openssl_sign_panics.
Theorem C85_openssl_sign_text : forall (o : ossl) (h : md) (k : pkey) (msg sig : str),
  ossl_http_sign o h k msg = Done sig -> exists tag, os_sign o h k msg = Some tag /\ sig = b64_bits tag.
Proof. exact ossl_sign_text. Qed.
Print Assumptions C85_openssl_sign_text.
(** [http_verify] never panics: its constructors make plain RSA keys only.  It says true exactly
    for the base64 text of a tag that the library accepts; an error of the library is false. *)
Theorem C85_openssl_verify : forall (o : ossl) (h : md) (n : N) (x msg sig : str), openssl_rules o ->
  exists b, ossl_http_verify o h (PRsa n x) msg sig = Done b
    /\ (b = true <-> exists tag, sig = b64_bits tag /\ os_verify o h (PRsa n x) tag msg = Some true).
Proof. exact ossl_verify_total. Qed.
Print Assumptions C85_openssl_verify.
(** Of a key of another kind, it would panic on base64 texts only. *)
Theorem C85_openssl_verify_panics : forall (o : ossl) (h : md) (k : pkey) (msg sig : str),
  ossl_http_verify o h k msg sig = Panic <-> (exists tag, sig = b64_bits tag) /\ (os_verifier o h k = false \/ os_padding o k = false).
Proof. exact ossl_verify_panics. Qed.
Print Assumptions C85_openssl_verify_panics.
(** While the library signs and checks as the primitives of C51 and C82 do, these are the signers and verifiers there. *)
Theorem C85_openssl_agrees : forall (cy : crypto) (o : ossl) (t : key_type) (s : scheme) (h : md) (n : N) (x : str) (rnd : N)
    (sg : http_signer) (vf : http_verifier),
  openssl_rules o -> openssl_md t = Some h -> openssl_scheme t = Some s ->
  openssl_signer cy t x = Some sg -> openssl_verifier cy t x = Some vf ->
  (forall m, os_sign o h (PRsa n x) m = Some (cy_sign cy s x rnd m)) -> (forall m tag, os_verify o h (PRsa n x) tag m = Some (cy_verify cy s x m tag)) ->
  (forall m, ossl_http_sign o h (PRsa n x) m = Done (sg_sign sg rnd m))
  /\ (forall m sig, ossl_http_verify o h (PRsa n x) m sig = Done (vf_verify vf m sig)).
Proof. exact agrees. Qed.
Print Assumptions C85_openssl_agrees.
(** Signing a request with a signer that may panic: it panics if it would with any signer (C27), or
    if the signer panics on the text to be signed; otherwise the result is that of a signer which
    does not panic and gives the same texts. *)
Theorem C85_sign_panics :
  forall R (cr : client_request_like R), client_laws cr ->
  forall (f : N -> str -> outcome str) (r : R) (c : signing_config) (env : sign_env) (date : str),
  auto_safe cr r c env -> (sc_add_date c = true -> http_date (seconds (se_utc env)) date) ->
  (sign_f cr f r c env = Panic <->
   sign cr r c env = Panic
   \/ ~ created_late c (seconds (se_sys env)) /\ ~ expires_early c (seconds (se_sys env))
      /\ exists cs base, to_sign cr r c date (seconds (se_sys env)) cs base /\ f (se_rnd env) base = Panic).
Proof. exact (fun R cr L f => panic_iff cr L f). Qed.
Print Assumptions C85_sign_panics.
Theorem C85_sign_result :
  forall R (cr : client_request_like R) (f : N -> str -> outcome str) (g : N -> str -> str) (r : R) (c : signing_config) (env : sign_env),
  (forall m s, f (se_rnd env) m = Done s -> g (se_rnd env) m = s) ->
  forall x, sign_f cr f r c env = Done x -> sign cr r (signing_with c g) env = Done x.
Proof. exact @same_result. Qed.
Print Assumptions C85_sign_result.
(** So a configuration made with a key that is not a plain RSA key signs nothing: every request
    that another signer of the same name would sign makes the call panic. *)
Theorem C85_accepted_keys_sign_refuted :
  forall R (cr : client_request_like R), client_laws cr ->
  forall (o : ossl) (h : md) (k : pkey) (r r' : R) (c : signing_config) (env : sign_env) (date : str),
  openssl_rules o -> (forall n x, k <> PRsa n x) ->
  auto_safe cr r c env -> (sc_add_date c = true -> http_date (seconds (se_utc env)) date) ->
  sign cr r c env = Done (r', Ok tt) -> sign_f cr (fun _ => ossl_http_sign o h k) r c env = Panic.
Proof. exact @other_keys_panic. Qed.
Print Assumptions C85_accepted_keys_sign_refuted.
(** The signers of ring panic when the library fails, and only then (for RSA keys see C94). *)
Theorem C85_ring_text : forall (lib : N -> str -> option str) (rnd : N) (msg : str),
  (forall sig, ring_http_sign lib rnd msg = Done sig <-> exists tag, lib rnd msg = Some tag /\ sig = b64_bits tag)
  /\ (ring_http_sign lib rnd msg = Panic <-> lib rnd msg = None).
Proof. exact ring_text. Qed.
Print Assumptions C85_ring_text.
Theorem C85_ring_sign_panics :
  forall R (cr : client_request_like R), client_laws cr ->
  forall (lib : N -> str -> option str) (r : R) (c : signing_config) (env : sign_env) (date : str),
  auto_safe cr r c env -> (sc_add_date c = true -> http_date (seconds (se_utc env)) date) ->
  (sign_f cr (ring_http_sign lib) r c env = Panic <->
   sign cr r c env = Panic
   \/ ~ created_late c (seconds (se_sys env)) /\ ~ expires_early c (seconds (se_sys env))
      /\ exists cs base, to_sign cr r c date (seconds (se_sys env)) cs base /\ lib (se_rnd env) base = None).
Proof. exact @ring_sign. Qed.
Print Assumptions C85_ring_sign_panics.
(** While it does not fail, [sign] is as everywhere else. *)
Theorem C85_ring_agrees :
  forall R (cr : client_request_like R) (cy : crypto) (t : key_type) (key : str) (lib : N -> str -> option str)
    (r : R) (c : signing_config) (env : sign_env),
  sc_signature c = ring_signer cy t key -> (forall m, lib (se_rnd env) m = Some (cy_sign cy (ring_sign_scheme t) key (se_rnd env) m)) ->
  sign_f cr (ring_http_sign lib) r c env = sign cr r c env.
Proof. exact @never_fails. Qed.
Print Assumptions C85_ring_agrees.
(** A library that follows the rules; a key that signs, and three that do not. *)
Definition fl_lib : ossl :=
  Ossl (fun _ k => match k with PEdwards _ => false | _ => true end) (fun _ k => match k with PEdwards _ => false | _ => true end)
    (fun k => match k with PRsa _ _ => true | _ => false end)
    (fun h k m => match k with PRsa n x => if (30 + digest_bytes h <=? n)%N then Some (toy_mac x m) else None | _ => None end)
    (fun h k t m => match k with PRsa n x => Some (str_eqb t (toy_mac x m)) | _ => None end).
Example C85_case : openssl_rules fl_lib
  /\ ossl_http_sign fl_lib MdSha512 (PRsa 256 $"secret") $"m" <> Panic
  /\ (forall k, In k [PRsa 64 $"secret"; PEc $"k"; PEdwards $"k"] -> ossl_http_sign fl_lib MdSha512 k $"m" = Panic)
  /\ (exists r', sign_f mr_client (fun _ => ossl_http_sign fl_lib MdSha512 (PRsa 256 $"secret")) m_req m_sconf m_senv = Done (r', Ok tt)
        /\ sign mr_client m_req m_sconf m_senv = Done (r', Ok tt))
  /\ sign_f mr_client (fun _ => ossl_http_sign fl_lib MdSha512 (PEc $"secret")) m_req m_sconf m_senv = Panic.
Proof.
  split.
  { split.
    - intros h [n x|x|x|x]; cbn; split; try discriminate; try reflexivity. intro H. destruct (H x eq_refl).
    - intros h [n x|x|x|x]; cbn; split; try discriminate; try reflexivity. intro H. destruct (H x eq_refl).
    - intros [n x|x|x|x]; cbn; split; try discriminate; eauto; intros (? & ? & E); discriminate.
    - intros h n x m. cbn [os_sign fl_lib]. destruct (30 + digest_bytes h <=? n)%N eqn:E; split.
      + intros _. apply N.leb_le in E. revert E. destruct h; cbn [digest_bytes]; lia.
      + eauto.
      + intros (t & F). discriminate.
      + intro F. apply N.leb_gt in E. revert E F. destruct h; cbn [digest_bytes]; lia. }
  split; [vm_compute; discriminate|]. split; [intros k [<- | [<- | [<- | []]]]; reflexivity|].
  split; [eexists; split; vm_compute; reflexivity|]. vm_compute. reflexivity.
Qed.
(** The random source fails, and works. *)
Example C85_ring_case :
  sign_f mr_client (ring_http_sign (fun _ _ => None)) m_req m_sconf m_senv = Panic
  /\ sign_f mr_client (ring_http_sign (fun _ m => Some (toy_mac $"secret" m))) m_req m_sconf m_senv = sign mr_client m_req m_sconf m_senv
  /\ sign mr_client m_req m_sconf m_senv <> Panic.
Proof. split; [vm_compute; reflexivity|]. split; vm_compute; [reflexivity|discriminate]. Qed.
