(** RSA: C91. *)
From Verif Require Import RsaCrate SpecRsa WitnessRsa.
From Verif Require RsaPss.
Local Open Scope N_scope.

(** C91: with RSA as in RFC 8017 behind the algorithms of the crate.  What is accepted is what
    the standard calls a signature ... *)
Theorem C91_verify : forall (private public : str -> option (N * N)) (ecdsa : crypto) (key : str) (n e : N) (msg tag : str),
  public key = Some (n, e) -> n <> 0 -> forall h,
  (cy_verify (rsa_over private public ecdsa) (pkcs1_with h) key msg tag = true <-> pkcs1_signature h n e msg tag)
  /\ (cy_verify (rsa_over private public ecdsa) (pss_with h) key msg tag = true <-> exists salt, pss_signature h n e msg salt tag).
Proof. exact rsa_verify_iff. Qed.
Print Assumptions C91_verify.
(** ... what is signed is one: for PSS, with the salt drawn ... *)
Theorem C91_sign : forall (private public : str -> option (N * N)) (ecdsa : crypto) (h : hashing) (sk pk : str) (n e d rnd : N) (msg : str),
  (rsa_keys private public (pkcs1_with h) sk pk n e d -> pkcs1_signature h n e msg (cy_sign (rsa_over private public ecdsa) (pkcs1_with h) sk rnd msg))
  /\ (rsa_keys private public (pss_with h) sk pk n e d ->
      exists salt, List.length salt = digest_size h /\ big_endian salt = rnd mod 256 ^ N.of_nat (digest_size h)
        /\ pss_signature h n e msg salt (cy_sign (rsa_over private public ecdsa) (pss_with h) sk rnd msg)).
Proof. exact rsa_signs. Qed.
Print Assumptions C91_sign.
(** ... so the keys of a pair work together. *)
Theorem C91_key_pair : forall (private public : str -> option (N * N)) (ecdsa : crypto) (s : scheme) (sk pk : str) (n e d : N),
  rsa_keys private public s sk pk n e d -> key_pair (rsa_over private public ecdsa) s sk pk.
Proof. exact rsa_key_pair. Qed.
Print Assumptions C91_key_pair.
Theorem C91_matching : forall (private public : str -> option (N * N)) (ecdsa : crypto) (s : scheme) (sk pk : str)
    (sg : http_signer) (vf : http_verifier) (n e d rnd : N),
  rsa_keys private public s sk pk n e d -> signs_with (rsa_over private public ecdsa) s sk sg -> verifies_by (rsa_over private public ecdsa) s pk vf ->
  matching sg rnd vf.
Proof. exact rsa_texts. Qed.
Print Assumptions C91_matching.
(** So what was signed is accepted: C09 with RSA keys and the constructors for ring. *)
Theorem C91_sign_then_verify : forall (private public : str -> option (N * N)) (ecdsa : crypto) (rk : ring_keys) (t : key_type) (sk pk : str) (n e d : N)
    (r r' : mock) (c : signing_config) (env : sign_env) (vc : verifying_config) (venv : verify_env) (k : http_verifier), let cy := rsa_over private public ecdsa in
  rsa_keys private public (scheme_of t) sk pk n e d -> ring_signs cy rk t sk (sc_signature c) -> ring_verifies cy t pk k -> In k (vc_keys vc (sc_key_id c)) ->
  sys_clock_ok (se_sys env) -> sign mr_client r c env = Done (r', Ok tt) ->
  sc_label c = $"sig" -> sc_nonce c <> Some [] ->
  Forall component_rep (sc_components c) -> (forall q, In q (sc_components c) -> ~ signature_header q) ->
  mr_derive r (CHeader $"digest") = Done None -> sc_compute_digest c = true ->
  sc_digest c = sha256_digest \/ sc_digest c = sha512_digest -> vc_digests vc = default_digest_provider ->
  sys_clock_ok (ve_sys venv) -> vc_validate_date vc = false ->
  (forall x, created_at c (seconds (se_sys env)) = Some x -> (x <= seconds (ve_sys venv))%Z) ->
  (forall x, expires_at c (seconds (se_sys env)) = Some x -> (seconds (ve_sys venv) <= x)%Z) ->
  (forall q, In q (vc_required vc) -> (exists h, q = CHeader h) /\ In q (sc_components c) /\ has_value (mr_derive r') q) ->
  verify mr_server r' vc venv = Done (Ok (tt, sc_key_id c)).
Proof. exact rsa_sign_verify. Qed.
Print Assumptions C91_sign_then_verify.
(** PKCS #1 v1.5: one signature text for a message, and nothing else is accepted for it.  PSS:
    one for a message and a salt. *)
Theorem C91_one_text : forall (private public : str -> option (N * N)) (ecdsa : crypto) (h : hashing) (sk pk : str)
    (sg : http_signer) (vf : http_verifier) (n e d rnd : N) (msg text : str),
  rsa_keys private public (pkcs1_with h) sk pk n e d ->
  signs_with (rsa_over private public ecdsa) (pkcs1_with h) sk sg -> verifies_by (rsa_over private public ecdsa) (pkcs1_with h) pk vf ->
  (vf_verify vf msg text = true <-> text = sg_sign sg rnd msg).
Proof. exact rsa_one_text. Qed.
Print Assumptions C91_one_text.
Theorem C91_one_tag_per_salt : forall (h : hashing) (n e d : N) (msg salt tag tag' : str), rsa_numbers n e d ->
  pss_signature h n e msg salt tag -> pss_signature h n e msg salt tag' -> tag = tag'.
Proof. exact RsaPss.pss_unique. Qed.
Print Assumptions C91_one_tag_per_salt.
(** A signature accepted for another message is a collision of the hash function. *)
Theorem C91_binds : forall (private public : str -> option (N * N)) (ecdsa : crypto) (s : scheme) (sk pk : str) (n e d rnd : N) (m1 m2 : str),
  rsa_keys private public s sk pk n e d -> m1 <> m2 ->
  cy_verify (rsa_over private public ecdsa) s pk m2 (cy_sign (rsa_over private public ecdsa) s sk rnd m1) = true -> confused s m1 m2.
Proof. exact rsa_confused. Qed.
Print Assumptions C91_binds.
(** So a changed request that is accepted is one: C10 with RSA. *)
Theorem C91_tampering : forall (private public : str -> option (N * N)) (ecdsa : crypto),
  forall R (cr : client_request_like R), client_laws cr ->
  forall S Rem (sr : server_request_like S Rem), server_laws sr ->
  forall (r r' : R) (c : signing_config) (env : sign_env) (s : S) (vc : verifying_config) (venv : verify_env) (rem : Rem) (kid : str)
    (sch : scheme) (sk pk : str) (n e d : N),
  sys_clock_ok (se_sys env) -> sign cr r c env = Done (r', Ok tt) ->
  Forall component_rep (sc_components c) -> sc_nonce c <> Some [] -> ~ In "="%char (sc_label c) -> plain (sc_label c) ->
  rsa_keys private public sch sk pk n e d -> signs_with (rsa_over private public ecdsa) sch sk (sc_signature c) ->
  (forall k, In k (vc_keys vc (sc_key_id c)) -> verifies_by (rsa_over private public ecdsa) sch pk k) ->
  rl_derive (sr_rl sr) s (CHeader $"signature-input") = rl_derive (cr_rl cr) r' (CHeader $"signature-input") ->
  rl_derive (sr_rl sr) s (CHeader $"signature") = rl_derive (cr_rl cr) r' (CHeader $"signature") ->
  same_line_feeds (signed_view (cr_rl cr) r r') (rl_derive (sr_rl sr) s) (sc_components c) ->
  verify sr s vc venv = Done (Ok (rem, kid)) ->
  (forall q v, In q (sc_components c) -> signed_view (cr_rl cr) r r' q = Done (Some v) -> rl_derive (sr_rl sr) s q = Done (Some v))
  \/ exists m1 m2, two_bases (signed_view (cr_rl cr) r r') (rl_derive (sr_rl sr) s) c (seconds (se_sys env)) m1 m2 /\ confused sch m1 m2.
Proof. exact @rsa_tampering. Qed.
Print Assumptions C91_tampering.
(** The public keys that ring reads, and that nothing verifies with any other. *)
Theorem C91_public_keys : forall (key : str) (n e : N), ring_rsa_public key = Some (n, e) <-> rsa_public_numbers key n e /\ ring_takes n e.
Proof. exact ring_public_iff. Qed.
Print Assumptions C91_public_keys.
Theorem C91_other_keys : forall (private : str -> option (N * N)) (ecdsa : crypto) (s : scheme) (key msg tag : str), rsa_scheme s ->
  (forall n e, ~ (rsa_public_numbers key n e /\ ring_takes n e)) -> cy_verify (rsa_over private ring_rsa_public ecdsa) s key msg tag = false.
Proof. exact rsa_other_keys. Qed.
Print Assumptions C91_other_keys.
(** The assumption of C55 and C57 on the primitives holds. *)
Theorem C91_wants_pkcs1 : forall (private : str -> option (N * N)) (ecdsa : crypto), wants_pkcs1 (rsa_over private ring_rsa_public ecdsa).
Proof. exact rsa_wants_pkcs1. Qed.
Print Assumptions C91_wants_pkcs1.
(** C82 again: what one library signs for a PSS type the other rejects, unless the digest of the
    message happens to end with the byte 188. *)
Theorem C91_pss_between_libraries_refuted : forall (private public : str -> option (N * N)) (ecdsa : crypto) (t : key_type) (sk pk : str) (n e d rnd : N) (msg : str)
    (ok : openssl_keys) (rk : ring_keys) (sg sg' : http_signer) (vf vf' : http_verifier), let cy := rsa_over private public ecdsa in
  t = RsaPssSha256 \/ t = RsaPssSha512 -> rsa_keys private public PSS_SHA512 sk pk n e d ->
  openssl_signs cy ok t sk sg -> openssl_verifies cy ok t pk vf -> ring_signs cy rk t sk sg' -> ring_verifies cy t pk vf' ->
  (forall x, digest_of (match t with RsaPssSha256 => With_SHA256 | _ => With_SHA512 end) msg <> x ++ [byte 188]) ->
  vf_verify vf' msg (sg_sign sg rnd msg) = false /\ vf_verify vf msg (sg_sign sg' rnd msg) = false.
Proof. exact rsa_between. Qed.
Print Assumptions C91_pss_between_libraries_refuted.

Example C91_case (ecdsa : crypto) : let cy := rsa_over some_private ring_rsa_public ecdsa in
  (forall s, rsa_scheme s -> rsa_keys some_private ring_rsa_public s [] some_public some_modulus some_exponent some_inverse)
  /\ (forall t, t <> EcdsaP256Sha256 -> exists sg vf, ring_signs cy (RingKeys Some Some Some) t [] sg /\ ring_verifies cy t some_public vf
        /\ signs_with cy (scheme_of t) [] sg /\ verifies_by cy (scheme_of t) some_public vf)
  /\ (forall n e, ~ (rsa_public_numbers $"rubbish" n e /\ ring_takes n e))
  /\ (forall x, digest_of With_SHA512 $"abc" <> x ++ [byte 188]).
Proof. exact (rsa_case ecdsa). Qed.
