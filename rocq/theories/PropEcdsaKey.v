(** ECDSA private-key files: C93. *)
From Verif Require Import EcdsaKeyFacts SpecEcdsaKey WitnessEcdsaKey.
From Verif Require Tests.
Local Open Scope N_scope.

(** C93: an ECDSA signer is made from exactly the PKCS#8 files (of less than 64 KiB) that hold a P-256 key, its number in
    32 bytes and in range, and the public key that belongs to it ... *)
Theorem C93_reads : forall c : curve, good_curve c ->
  forall (rp rq : str -> option (N * N)) (nonces : N -> list Z) (rsa_pkcs8 rsa_der : str -> option str) (b : str),
  let cy := rsa_over rp rq (ecdsa_over c ring_ec_number nonces) in let rk := ring_keys_over c rsa_pkcs8 rsa_der in
  (sign_new_pkcs8 cy rk EcdsaP256Sha256 b <> None <-> short_file b /\ exists key public, ec_pkcs8 key (Some public) b /\ ec_pair c key public)
  /\ forall sg, sign_new_pkcs8 cy rk EcdsaP256Sha256 b = Some sg ->
       exists key public, ec_pkcs8 key (Some public) b /\ ec_pair c key public /\ signs_with cy ECDSA_P256_SHA256 key sg.
Proof. exact made_iff. Qed.
Print Assumptions C93_reads.
(** ... whichever of the two constructors reads it, and what it signs is accepted by every verifier made from that public key. *)
Theorem C93_signer : forall c : curve, good_curve c ->
  forall (rp rq : str -> option (N * N)) (nonces : N -> list Z) (rsa_pkcs8 rsa_der : str -> option str) (b key public : str),
  let cy := rsa_over rp rq (ecdsa_over c ring_ec_number nonces) in let rk := ring_keys_over c rsa_pkcs8 rsa_der in
  short_file b -> ec_pkcs8 key (Some public) b -> ec_pair c key public -> enough_draws c (Z.of_N (big_endian key)) nonces ->
  exists sg, sign_new_pkcs8 cy rk EcdsaP256Sha256 b = Some sg
    /\ (forall text label, pem_file text label b -> sign_new_pkcs8_pem cy rk EcdsaP256Sha256 text = Some sg)
    /\ forall vf rnd, ring_verifies cy EcdsaP256Sha256 public vf -> matching sg rnd vf.
Proof. exact file_signs. Qed.
Print Assumptions C93_signer.
(** From the files to an accepted request: if the signer was made at all, nothing is left to assume about the keys. *)
Theorem C93_sign_then_verify : forall c : curve, good_curve c ->
  forall (rp rq : str -> option (N * N)) (nonces : N -> list Z) (rsa_pkcs8 rsa_der : str -> option str) (file file' key public oid : str)
    (r r' : mock) (cf : signing_config) (env : sign_env) (vc : verifying_config) (venv : verify_env) (k : http_verifier),
  let cy := rsa_over rp rq (ecdsa_over c ring_ec_number nonces) in let rk := ring_keys_over c rsa_pkcs8 rsa_der in
  ec_pkcs8 key (Some public) file -> sign_new_pkcs8 cy rk EcdsaP256Sha256 file = Some (sc_signature cf) ->
  spki oid public file' -> verify_new_spki_der cy EcdsaP256Sha256 file' = Some k -> In k (vc_keys vc (sc_key_id cf)) ->
  enough_draws c (Z.of_N (big_endian key)) nonces ->
  sys_clock_ok (se_sys env) -> sign mr_client r cf env = Done (r', Ok tt) ->
  sc_label cf = $"sig" -> sc_nonce cf <> Some [] ->
  Forall component_rep (sc_components cf) -> (forall q, In q (sc_components cf) -> ~ signature_header q) ->
  mr_derive r (CHeader $"digest") = Done None -> sc_compute_digest cf = true ->
  sc_digest cf = sha256_digest \/ sc_digest cf = sha512_digest -> vc_digests vc = default_digest_provider ->
  sys_clock_ok (ve_sys venv) -> vc_validate_date vc = false ->
  (forall x, created_at cf (seconds (se_sys env)) = Some x -> (x <= seconds (ve_sys venv))%Z) ->
  (forall x, expires_at cf (seconds (se_sys env)) = Some x -> (seconds (ve_sys venv) <= x)%Z) ->
  (forall q, In q (vc_required vc) -> (exists h, q = CHeader h) /\ In q (sc_components cf) /\ has_value (mr_derive r') q) ->
  verify mr_server r' vc venv = Done (Ok (tt, sc_key_id cf)).
Proof. exact file_sign_verify. Qed.
Print Assumptions C93_sign_then_verify.
(** The private key is the only one of its public key, and a file holds one pair. *)
Theorem C93_one_private : forall c : curve, good_curve c -> forall key key' public : str,
  ec_pair c key public -> ec_pair c key' public -> key = key'.
Proof. exact one_private. Qed.
Print Assumptions C93_one_private.
Theorem C93_one_pair : forall b key key' public public' : str, short_file b ->
  ec_pkcs8 key (Some public) b -> ec_pkcs8 key' (Some public') b -> key = key' /\ public = public'.
Proof. exact file_unique. Qed.
Print Assumptions C93_one_pair.
(** Every number of the curve has a file. *)
Theorem C93_every_number : forall c : curve, good_curve c -> forall d : Z, (0 < d < cv_n c)%Z ->
  exists key public b, Z.of_N (big_endian key) = d /\ ec_pair c key public /\ ec_pkcs8 key (Some public) b /\ short_file b.
Proof. exact every_number. Qed.
Print Assumptions C93_every_number.
(** The public key is optional in the standard (RFC 5915 section 3), and one would like such files read.  They are not ... *)
Theorem C93_without_public_refuted : forall c : curve, good_curve c ->
  forall (rp rq : str -> option (N * N)) (nonces : N -> list Z) (rsa_pkcs8 rsa_der : str -> option str) (key b : str),
  let cy := rsa_over rp rq (ecdsa_over c ring_ec_number nonces) in let rk := ring_keys_over c rsa_pkcs8 rsa_der in
  ec_pkcs8 key None b -> sign_new_pkcs8 cy rk EcdsaP256Sha256 b = None
  /\ forall text label, pem_file text label b -> sign_new_pkcs8_pem cy rk EcdsaP256Sha256 text = None.
Proof. exact no_public_made. Qed.
Print Assumptions C93_without_public_refuted.
(** ... nor the form of RFC 5915 itself ("EC PRIVATE KEY"), which no constructor takes. *)
Theorem C93_sec1_refuted : forall c : curve, good_curve c ->
  forall (rp rq : str -> option (N * N)) (nonces : N -> list Z) (rsa_pkcs8 rsa_der : str -> option str) (key b : str) (public : option str),
  let cy := rsa_over rp rq (ecdsa_over c ring_ec_number nonces) in let rk := ring_keys_over c rsa_pkcs8 rsa_der in
  ec_private_key key public b -> sign_new_pkcs8 cy rk EcdsaP256Sha256 b = None
  /\ forall text label, pem_file text label b -> sign_new_pkcs8_pem cy rk EcdsaP256Sha256 text = None.
Proof. exact no_sec1_made. Qed.
Print Assumptions C93_sec1_refuted.

(** A file of a key on P-256; one on the small curve, with enough numbers drawn; one without the public key. *)
Example C93_p256_case : ec_pkcs8 one (Some p256_key) (key_file one p256_key) /\ short_file (key_file one p256_key) /\ ec_pair p256 one p256_key.
Proof. exact p256_file. Qed.
Example C93_case : ec_pkcs8 seven (Some small_key) (key_file seven small_key) /\ short_file (key_file seven small_key)
  /\ ec_pair small_curve seven small_key /\ enough_draws small_curve (Z.of_N (big_endian seven)) small_nonces.
Proof. exact (conj (proj1 small_file) (conj (proj2 small_file) (conj small_pair seven_draws))). Qed.
Example C93_without_public_case : ec_pkcs8 one None (bare_file one).
Proof. exact bare_case. Qed.
(** test_data/ecc-private.pem has this form, with the public key of test_data/ecc-public.pem. *)
Example C93_test_data : exists contents key public, pem_parse test_private = Some ($"PRIVATE KEY", contents)
  /\ ec_pkcs8 key (Some public) contents /\ short_file contents /\ List.length key = 32%nat
  /\ exists oid contents', pem_parse Tests.ecc_public_pem = Some ($"PUBLIC KEY", contents') /\ spki oid public contents'.
Proof. exact test_file. Qed.
