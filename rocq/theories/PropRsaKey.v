(** RSA private-key files and the signers of ring made from them: C94. *)
From Verif Require Import SpecRsaKey RsaKeyFacts RsaKeyCrate WitnessRsaKey.
From Verif Require Tests.
Local Open Scope N_scope.

(** C94: an RSA signer is made from exactly the files (of less than 64 KiB) that hold a private key whose numbers are as
    [ring_private] says, bare or in PKCS#8 under the label rsaEncryption, whatever the type; it signs with that key. *)
Theorem C94_reads : forall (ecdsa : crypto) (ec : str -> option str) (t : key_type) (b : str),
  let cy := ring_rsa_over ecdsa in let rk := RingKeys ring_rsa_pkcs8 ring_rsa_der ec in t <> EcdsaP256Sha256 ->
  (sign_new_pkcs1 cy rk t b <> None <-> short_file b /\ exists n e d p q dp dq qinv, rsa_private_key n e d p q dp dq qinv b /\ ring_private n e d p q dp dq qinv)
  /\ (sign_new_pkcs8 cy rk t b <> None <-> short_file b /\ exists key n e d p q dp dq qinv,
        rsa_pkcs8 key b /\ rsa_private_key n e d p q dp dq qinv key /\ ring_private n e d p q dp dq qinv)
  /\ (forall sg, sign_new_pkcs1 cy rk t b = Some sg -> signs_with cy (scheme_of t) b sg)
  /\ (forall sg, sign_new_pkcs8 cy rk t b = Some sg -> exists key, rsa_pkcs8 key b /\ signs_with cy (scheme_of t) key sg
        /\ sign_new_pkcs1 cy rk t key = Some sg).
Proof. exact rsa_reads. Qed.
Print Assumptions C94_reads.
(** A file holds one list of numbers. *)
Theorem C94_one_key : forall (s : str) (n e d p q dp dq qinv n' e' d' p' q' dp' dq' qinv' : N), short_file s ->
  rsa_private_key n e d p q dp dq qinv s -> rsa_private_key n' e' d' p' q' dp' dq' qinv' s ->
  [n; e; d; p; q; dp; dq; qinv] = [n'; e'; d'; p'; q'; dp'; dq'; qinv'].
Proof. exact numbers_unique. Qed.
Print Assumptions C94_one_key.
(** What such a key signs is a signature of RFC 8017 under the modulus and the public exponent in the file ... *)
Theorem C94_signature : forall (key : str) (n e d p q dp dq qinv : N),
  short_file key -> rsa_private_key n e d p q dp dq qinv key -> ring_private n e d p q dp dq qinv ->
  forall (h : hashing) (rnd : N) (msg tag : str),
  (ring_rsa_sign (pkcs1_with h) key rnd msg = Some tag -> pkcs1_signature h n e msg tag)
  /\ (ring_rsa_sign (pss_with h) key rnd msg = Some tag ->
      exists salt, List.length salt = digest_size h /\ big_endian salt = rnd mod 256 ^ N.of_nat (digest_size h) /\ pss_signature h n e msg salt tag).
Proof. exact key_signature. Qed.
Print Assumptions C94_signature.
(** ... so every verifier made with these two numbers accepts it, whatever the other numbers are. *)
Theorem C94_accepted : forall (key : str) (n e d p q dp dq qinv : N),
  short_file key -> rsa_private_key n e d p q dp dq qinv key -> ring_private n e d p q dp dq qinv ->
  forall (ecdsa : crypto) (t : key_type) (public : str) (vf : http_verifier) (rnd : N) (msg text : str), t <> EcdsaP256Sha256 ->
  ring_http_sign (ring_rsa_sign (scheme_of t) key) rnd msg = Done text ->
  rsa_public_numbers public n e -> ring_verifies (ring_rsa_over ecdsa) t public vf -> vf_verify vf msg text = true.
Proof. exact RsaKeyCrate.key_text. Qed.
Print Assumptions C94_accepted.
(** If the exponents belong to the factors, signing does not fail, for any message and type ... *)
Theorem C94_infallible : forall (key : str) (n e d p q dp dq qinv : N),
  short_file key -> rsa_private_key n e d p q dp dq qinv key -> ring_private n e d p q dp dq qinv ->
  forall (t : key_type) (rnd : N) (msg : str), t <> EcdsaP256Sha256 -> rsa_exponents e p q dp dq ->
  exists text, ring_http_sign (ring_rsa_sign (scheme_of t) key) rnd msg = Done text.
Proof. exact key_total. Qed.
Print Assumptions C94_infallible.
(** ... and if the private exponent belongs to the modulus, the tag is the one of C91, made from these two alone. *)
Theorem C94_same : forall (key : str) (n e d p q dp dq qinv : N),
  short_file key -> rsa_private_key n e d p q dp dq qinv key -> ring_private n e d p q dp dq qinv ->
  forall (s : scheme) (public : str -> option (N * N)) (ecdsa : crypto) (rnd : N) (msg : str),
  rsa_scheme s -> rsa_numbers n e d -> rsa_exponents e p q dp dq ->
  ring_rsa_sign s key rnd msg = Some (cy_sign (rsa_over (fun _ => Some (n, d)) public ecdsa) s key rnd msg).
Proof. exact key_same. Qed.
Print Assumptions C94_same.
(** Keys as in the standard, of 2048, 3072 or 4096 bits, are such ... *)
Theorem C94_standard : forall n e d p q dp dq qinv : N, standard_key n e d p q dp dq qinv ->
  rsa_numbers n e d /\ (ring_sizes n e d p q -> ring_private n e d p q dp dq qinv /\ rsa_exponents e p q dp dq).
Proof. exact (fun n e d p q dp dq qinv S => conj (standard_numbers n e d p q dp dq qinv S) (standard_read n e d p q dp dq qinv S)). Qed.
Print Assumptions C94_standard.
(** ... so all four constructors read their files and give the same signer, which signs every message. *)
Theorem C94_standard_file : forall (ecdsa : crypto) (ec : str -> option str) (t : key_type) (key b : str) (n e d p q dp dq qinv : N),
  let cy := ring_rsa_over ecdsa in let rk := RingKeys ring_rsa_pkcs8 ring_rsa_der ec in t <> EcdsaP256Sha256 ->
  standard_key n e d p q dp dq qinv -> ring_sizes n e d p q -> rsa_private_key n e d p q dp dq qinv key -> rsa_pkcs8 key b -> short_file b ->
  exists sg, sign_new_pkcs8 cy rk t b = Some sg /\ sign_new_pkcs1 cy rk t key = Some sg
    /\ (forall text label, pem_file text label b -> sign_new_pkcs8_pem cy rk t text = Some sg)
    /\ (forall text label, pem_file text label key -> sign_new_pkcs1_pem cy rk t text = Some sg)
    /\ forall rnd msg, exists tag, ring_rsa_sign (scheme_of t) key rnd msg = Some tag /\ sg_sign sg rnd msg = b64_bits tag.
Proof. exact rsa_standard_file. Qed.
Print Assumptions C94_standard_file.
(** Then signing a request is what it is everywhere else in the model ... *)
Theorem C94_request : forall (ecdsa : crypto) (ec : str -> option str) R (cr : client_request_like R) (t : key_type) (key : str)
    (n e d p q dp dq qinv : N) (r : R) (c : signing_config) (env : sign_env),
  let cy := ring_rsa_over ecdsa in let rk := RingKeys ring_rsa_pkcs8 ring_rsa_der ec in t <> EcdsaP256Sha256 ->
  ring_signs cy rk t key (sc_signature c) -> rsa_private_key n e d p q dp dq qinv key -> rsa_exponents e p q dp dq ->
  sign_f cr (ring_http_sign (ring_rsa_sign (scheme_of t) key)) r c env = sign cr r c env.
Proof. exact @rsa_request. Qed.
Print Assumptions C94_request.
(** ... and from the two files on, a request that was signed is accepted. *)
Theorem C94_sign_then_verify : forall (ecdsa : crypto) (ec : str -> option str) (t : key_type) (key public : str) (n e d p q dp dq qinv : N)
    (r r' : mock) (c : signing_config) (env : sign_env) (vc : verifying_config) (venv : verify_env) (k : http_verifier),
  let cy := ring_rsa_over ecdsa in let rk := RingKeys ring_rsa_pkcs8 ring_rsa_der ec in t <> EcdsaP256Sha256 ->
  ring_signs cy rk t key (sc_signature c) -> rsa_private_key n e d p q dp dq qinv key -> rsa_exponents e p q dp dq ->
  rsa_public_numbers public n e -> ring_verifies cy t public k -> In k (vc_keys vc (sc_key_id c)) ->
  sys_clock_ok (se_sys env) -> sign mr_client r c env = Done (r', Ok tt) ->
  sc_label c = $"sig" -> sc_nonce c <> Some [] ->
  Forall component_rep (sc_components c) -> (forall q, In q (sc_components c) -> ~ signature_header q) ->
  mr_derive r (CHeader $"digest") = Done None -> sc_compute_digest c = true ->
  sc_digest c = sha256_digest \/ sc_digest c = sha512_digest -> vc_digests vc = default_digest_provider ->
  sys_clock_ok (ve_sys venv) -> vc_validate_date vc = false ->
  (forall x, created_at c (seconds (se_sys env)) = Some x -> (x <= seconds (ve_sys venv))%Z) ->
  (forall x, expires_at c (seconds (se_sys env)) = Some x -> (seconds (ve_sys venv) <= x)%Z) ->
  (forall q, In q (vc_required vc) -> (exists h, q = CHeader h) /\ In q (sc_components c) /\ has_value (mr_derive r') q) ->
  verify mr_server r' vc venv = Done (Ok (tt, sc_key_id c)).
Proof. exact rsa_file_verify. Qed.
Print Assumptions C94_sign_then_verify.
(** "Signing should be infallible" (src/algorithm/ring.rs:94), and one would like the files that are read to sign.
    One of them makes [http_sign] panic ... *)
Theorem C94_infallible_refuted : ~ forall (key : str) (n e d p q dp dq qinv rnd : N) (msg : str),
  short_file key -> rsa_private_key n e d p q dp dq qinv key -> ring_private n e d p q dp dq qinv ->
  ring_http_sign (ring_rsa_sign PKCS1_SHA256 key) rnd msg <> Panic.
Proof. exact (fun H => H odd_key_file odd_n 65537 odd_d odd_p odd_q 1 1 (odd_p / 2) 0 $"message" (proj1 odd_file) (proj2 odd_file) odd_ok (odd_fails 0)). Qed.
Print Assumptions C94_infallible_refuted.
(** ... and its modulus is not even the product of the two factors. *)
Theorem C94_product_refuted : ~ forall n e d p q dp dq qinv : N, ring_private n e d p q dp dq qinv -> n = p * q.
Proof. exact (fun H => odd_product (H odd_n 65537 odd_d odd_p odd_q 1 1 (odd_p / 2) odd_ok)). Qed.
Print Assumptions C94_product_refuted.
(** Keys labelled for PSS only (id-RSASSA-PSS, RFC 4055) should serve the PSS types.  They are not read, as no file under another label is. *)
Theorem C94_pss_label_refuted : forall (ecdsa : crypto) (ec : str -> option str) (t : key_type) (algorithm key b text label : str),
  let cy := ring_rsa_over ecdsa in let rk := RingKeys ring_rsa_pkcs8 ring_rsa_der ec in t <> EcdsaP256Sha256 ->
  wrapped_key algorithm key b -> algorithm <> rsa_algorithm -> pem_file text label b ->
  sign_new_pkcs8 cy rk t b = None /\ sign_new_pkcs8_pem cy rk t text = None.
Proof. exact other_algorithm. Qed.
Print Assumptions C94_pss_label_refuted.

(** A key of 2048 bits (of small primes), bare and wrapped, that meets everything ring asks and whose exponents belong to it. *)
Example C94_case : short_file some_key_file /\ rsa_private_key some_n 65537 some_d some_p some_q some_dp some_dq some_qinv some_key_file
  /\ ring_private some_n 65537 some_d some_p some_q some_dp some_dq some_qinv /\ rsa_exponents 65537 some_p some_q some_dp some_dq
  /\ short_file (pkcs8_file some_key_file) /\ rsa_pkcs8 some_key_file (pkcs8_file some_key_file).
Proof. exact (conj (proj1 some_file) (conj (proj2 some_file) (conj some_ok (conj some_exponents some_pkcs8)))). Qed.
(** A small key as in the standard. *)
Example C94_standard_case : standard_key 77 7 43 11 7 3 1 8.
Proof. exact small_standard. Qed.
(** test_data/rsa-private.pem is read; it is a key as in the standard if its factors are primes, and test_data/rsa-public.pem is its public key. *)
Example C94_test_data : exists contents key n e d p q dp dq qinv public,
  pem_parse test_rsa_private = Some ($"PRIVATE KEY", contents) /\ short_file contents /\ rsa_pkcs8 key contents
  /\ rsa_private_key n e d p q dp dq qinv key /\ ring_private n e d p q dp dq qinv
  /\ (is_prime p -> is_prime q -> standard_key n e d p q dp dq qinv /\ ring_sizes n e d p q)
  /\ (exists label, pem_parse Tests.rsa_public_pem = Some (label, public)) /\ rsa_public_numbers public n e.
Proof. exact test_rsa_file. Qed.
(** test_data/rsa-private-justin.pem is labelled for PSS. *)
Example C94_pss_label_case : exists contents key, pem_parse test_pss_private = Some ($"PRIVATE KEY", contents)
  /\ wrapped_key pss_algorithm key contents /\ pss_algorithm <> rsa_algorithm.
Proof. exact pss_label. Qed.
