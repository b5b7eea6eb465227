(** ECDSA: C92. *)
From Verif Require Import EcdsaCrate SpecEcdsa WitnessEcdsa.
From Verif Require Tests.
Local Open Scope Z_scope.

(** C92: with ECDSA as in FIPS 186-4 behind the algorithm of the crate, over any curve with good
    parameters.  P-256 is one ... *)
Theorem C92_p256 : good_curve p256.
Proof. exact p256_good. Qed.
Print Assumptions C92_p256.
(** ... and the points of such a curve are a group: the sum of two is one point, on the curve, whatever the order and the grouping. *)
Theorem C92_group : forall c : curve, good_curve c -> forall P Q R : point, on_curve c P -> on_curve c Q -> on_curve c R ->
  (exists S, sum_of c P Q S /\ on_curve c S /\ sum_of c Q P S /\ forall S', sum_of c P Q S' -> S' = S)
  /\ (exists P', sum_of c P P' None /\ on_curve c P')
  /\ forall PQ QR X, sum_of c P Q PQ -> sum_of c Q R QR -> (sum_of c PQ R X <-> sum_of c P QR X).
Proof. exact good_laws. Qed.
Print Assumptions C92_group.
(** What is accepted is what the standard calls a signature, in DER, with the key
    an uncompressed point ... *)
Theorem C92_verify : forall (rp rq : str -> option (N * N)) (c : curve) (private : str -> option Z) (nonces : N -> list Z), good_curve c ->
  forall key msg tag : str,
  cy_verify (rsa_over rp rq (ecdsa_over c private nonces)) ECDSA_P256_SHA256 key msg tag = true <->
  exists Q r s, public_point c key Q /\ pair_in_der r s tag /\ valid_pair c Q (hash_number msg) r s.
Proof. exact ec_verify. Qed.
Print Assumptions C92_verify.
Theorem C92_other_keys : forall (rp rq : str -> option (N * N)) (c : curve) (private : str -> option Z) (nonces : N -> list Z), good_curve c ->
  forall key msg tag : str, (forall Q, ~ public_point c key Q) ->
  cy_verify (rsa_over rp rq (ecdsa_over c private nonces)) ECDSA_P256_SHA256 key msg tag = false.
Proof. exact ec_other_keys. Qed.
Print Assumptions C92_other_keys.
(** ... what is signed is one: made with the first number drawn that works. *)
Theorem C92_sign : forall (rp rq : str -> option (N * N)) (c : curve) (private : str -> option Z) (nonces : N -> list Z), good_curve c ->
  forall (sk pk : str) (d : Z) (Q : point) (rnd : N) (msg : str), ec_keys c private sk pk d Q -> enough_draws c d nonces ->
  exists r s, first_made c d (hash_number msg) (nonces rnd) r s /\ valid_pair c Q (hash_number msg) r s
    /\ forall tag, pair_in_der r s tag <-> tag = cy_sign (rsa_over rp rq (ecdsa_over c private nonces)) ECDSA_P256_SHA256 sk rnd msg.
Proof. exact ec_signs. Qed.
Print Assumptions C92_sign.
Theorem C92_no_draw : forall (rp rq : str -> option (N * N)) (c : curve) (private : str -> option Z) (nonces : N -> list Z), good_curve c ->
  forall (sk : str) (d : Z) (rnd : N) (msg : str), private sk = Some d ->
  (forall r s, ~ first_made c d (hash_number msg) (nonces rnd) r s) ->
  cy_sign (rsa_over rp rq (ecdsa_over c private nonces)) ECDSA_P256_SHA256 sk rnd msg = [].
Proof. exact ec_no_sign. Qed.
Print Assumptions C92_no_draw.
(** So the keys of a pair work together, and what was signed is accepted. *)
Theorem C92_key_pair : forall (rp rq : str -> option (N * N)) (c : curve) (private : str -> option Z) (nonces : N -> list Z), good_curve c ->
  forall (sk pk : str) (d : Z) (Q : point), ec_keys c private sk pk d Q -> enough_draws c d nonces ->
  key_pair (rsa_over rp rq (ecdsa_over c private nonces)) ECDSA_P256_SHA256 sk pk.
Proof. exact ec_key_pair. Qed.
Print Assumptions C92_key_pair.
Theorem C92_matching : forall (rp rq : str -> option (N * N)) (c : curve) (private : str -> option Z) (nonces : N -> list Z), good_curve c ->
  forall (sk pk : str) (sg : http_signer) (vf : http_verifier) (d : Z) (Q : point) (rnd : N), let cy := rsa_over rp rq (ecdsa_over c private nonces) in
  ec_keys c private sk pk d Q -> enough_draws c d nonces ->
  signs_with cy ECDSA_P256_SHA256 sk sg -> verifies_by cy ECDSA_P256_SHA256 pk vf -> matching sg rnd vf.
Proof. exact ec_texts. Qed.
Print Assumptions C92_matching.
Theorem C92_sign_then_verify : forall (rp rq : str -> option (N * N)) (c : curve) (private : str -> option Z) (nonces : N -> list Z), good_curve c ->
  forall (rk : ring_keys) (sk pk : str) (d : Z) (Q : point) (r r' : mock) (cf : signing_config) (env : sign_env)
    (vc : verifying_config) (venv : verify_env) (k : http_verifier), let cy := rsa_over rp rq (ecdsa_over c private nonces) in
  ec_keys c private sk pk d Q -> enough_draws c d nonces ->
  ring_signs cy rk EcdsaP256Sha256 sk (sc_signature cf) -> ring_verifies cy EcdsaP256Sha256 pk k -> In k (vc_keys vc (sc_key_id cf)) ->
  sys_clock_ok (se_sys env) -> sign mr_client r cf env = Done (r', Ok tt) ->
  sc_label cf = $"sig" -> sc_nonce cf <> Some [] ->
  Forall component_rep (sc_components cf) -> (forall q, In q (sc_components cf) -> ~ signature_header q) ->
  mr_derive r (CHeader $"digest") = Done None -> sc_compute_digest cf = true ->
  sc_digest cf = sha256_digest \/ sc_digest cf = sha512_digest -> vc_digests vc = default_digest_provider ->
  sys_clock_ok (ve_sys venv) -> vc_validate_date vc = false ->
  (forall x, created_at cf (seconds (se_sys env)) = Some x -> (x <= seconds (ve_sys venv))%Z) ->
  (forall x, expires_at cf (seconds (se_sys env)) = Some x -> (seconds (ve_sys venv) <= x)%Z) ->
  (forall q, In q (vc_required vc) -> (exists h, q = CHeader h) /\ In q (sc_components cf) /\ has_value (mr_derive r') q) ->
  verify mr_server r' vc venv = Done (Ok (tt, sc_key_id cf)).
Proof. exact ec_sign_verify. Qed.
Print Assumptions C92_sign_then_verify.
(** One would like one text for a message and the numbers drawn.  There is one for a pair ... *)
Theorem C92_one_text_per_pair : forall (c : curve), good_curve c -> forall (Q : point) (z r s : Z) (tag tag' : str),
  valid_pair c Q z r s -> pair_in_der r s tag -> pair_in_der r s tag' -> tag = tag'.
Proof. exact ec_one_tag. Qed.
Print Assumptions C92_one_text_per_pair.
(** ... but whoever sees an accepted signature has another for the same text, without the key. *)
Theorem C92_one_text_refuted : forall (rp rq : str -> option (N * N)) (c : curve) (private : str -> option Z) (nonces : N -> list Z), good_curve c ->
  forall (pk : str) (vf : http_verifier) (d : Z) (Q : point) (msg text : str),
  0 < d < cv_n c -> multiple c (Some (cv_gx c, cv_gy c)) (Z.to_nat d) Q -> public_point c pk Q ->
  verifies_by (rsa_over rp rq (ecdsa_over c private nonces)) ECDSA_P256_SHA256 pk vf ->
  vf_verify vf msg text = true -> exists text', text' <> text /\ vf_verify vf msg text' = true.
Proof. exact ec_other_text. Qed.
Print Assumptions C92_one_text_refuted.
(** The draft asks for the two numbers in 32 bytes each.  What is signed is never that, and a
    signature in that form is accepted only if its bytes happen to be another one in DER. *)
Theorem C92_draft_form_refuted : forall (rp rq : str -> option (N * N)) (c : curve) (private : str -> option Z) (nonces : N -> list Z), good_curve c ->
  forall (sk pk : str) (d : Z) (Q : point) (rnd : N) (msg : str), let cy := rsa_over rp rq (ecdsa_over c private nonces) in
  ec_keys c private sk pk d Q -> enough_draws c d nonces ->
  (forall r s, first_made c d (hash_number msg) (nonces rnd) r s -> ~ pair_in_draft r s (cy_sign cy ECDSA_P256_SHA256 sk rnd msg))
  /\ (forall r s tag, pair_in_draft r s tag -> cy_verify cy ECDSA_P256_SHA256 pk msg tag = true ->
        exists r' s', (r', s') <> (r, s) /\ pair_in_der r' s' tag /\ valid_pair c Q (hash_number msg) r' s').
Proof. exact ec_not_draft. Qed.
Print Assumptions C92_draft_form_refuted.
(** A signature accepted for two texts: their digests are the same modulo the order, or are in a
    relation only the holder of the key could arrange, or the abscissa is one of few. *)
Theorem C92_binds : forall (rp rq : str -> option (N * N)) (c : curve) (private : str -> option Z) (nonces : N -> list Z), good_curve c ->
  forall (pk : str) (d : Z) (Q : point) (m1 m2 tag : str), let cy := rsa_over rp rq (ecdsa_over c private nonces) in
  0 < d < cv_n c -> multiple c (Some (cv_gx c, cv_gy c)) (Z.to_nat d) Q -> public_point c pk Q ->
  cy_verify cy ECDSA_P256_SHA256 pk m1 tag = true -> cy_verify cy ECDSA_P256_SHA256 pk m2 tag = true ->
  exists r s, pair_in_der r s tag /\ (same (cv_n c) (hash_number m1) (hash_number m2)
    \/ same (cv_n c) (hash_number m1 + hash_number m2 + 2 * r * d) 0 \/ r + cv_n c < cv_p c).
Proof. exact ec_twice. Qed.
Print Assumptions C92_binds.
(** The holder can: for (almost) any two texts there are a key and one signature for both. *)
Theorem C92_two_texts_refuted : forall (rp rq : str -> option (N * N)) (c : curve) (private : str -> option Z) (nonces : N -> list Z), good_curve c ->
  forall (m1 m2 : str) (k x y : Z), let cy := rsa_over rp rq (ecdsa_over c private nonces) in
  0 < k < cv_n c -> multiple c (Some (cv_gx c, cv_gy c)) (Z.to_nat k) (Some (x, y)) -> ~ same (cv_n c) x 0 ->
  ~ same (cv_n c) (hash_number m1) (hash_number m2) -> ~ same (cv_n c) (hash_number m1 + hash_number m2) 0 ->
  exists d Q pk tag, 0 < d < cv_n c /\ multiple c (Some (cv_gx c, cv_gy c)) (Z.to_nat d) Q /\ public_point c pk Q
    /\ cy_verify cy ECDSA_P256_SHA256 pk m1 tag = true /\ cy_verify cy ECDSA_P256_SHA256 pk m2 tag = true.
Proof. exact ec_two_messages. Qed.
Print Assumptions C92_two_texts_refuted.
(** C10 with ECDSA: a changed request that is accepted. *)
Theorem C92_tampering : forall (rp rq : str -> option (N * N)) (c : curve) (private : str -> option Z) (nonces : N -> list Z), good_curve c ->
  forall R (cr : client_request_like R), client_laws cr ->
  forall S Rem (sr : server_request_like S Rem), server_laws sr ->
  forall (r r' : R) (cf : signing_config) (env : sign_env) (s : S) (vc : verifying_config) (venv : verify_env) (rem : Rem) (kid : str)
    (sk pk : str) (d : Z) (Q : point), let cy := rsa_over rp rq (ecdsa_over c private nonces) in
  sys_clock_ok (se_sys env) -> sign cr r cf env = Done (r', Ok tt) ->
  Forall component_rep (sc_components cf) -> sc_nonce cf <> Some [] -> ~ In "="%char (sc_label cf) -> plain (sc_label cf) ->
  ec_keys c private sk pk d Q -> enough_draws c d nonces -> signs_with cy ECDSA_P256_SHA256 sk (sc_signature cf) ->
  (forall k, In k (vc_keys vc (sc_key_id cf)) -> verifies_by cy ECDSA_P256_SHA256 pk k) ->
  rl_derive (sr_rl sr) s (CHeader $"signature-input") = rl_derive (cr_rl cr) r' (CHeader $"signature-input") ->
  rl_derive (sr_rl sr) s (CHeader $"signature") = rl_derive (cr_rl cr) r' (CHeader $"signature") ->
  same_line_feeds (signed_view (cr_rl cr) r r') (rl_derive (sr_rl sr) s) (sc_components cf) ->
  verify sr s vc venv = Done (Ok (rem, kid)) ->
  (forall q v, In q (sc_components cf) -> signed_view (cr_rl cr) r r' q = Done (Some v) -> rl_derive (sr_rl sr) s q = Done (Some v))
  \/ exists m1 m2 a b, two_bases (signed_view (cr_rl cr) r r') (rl_derive (sr_rl sr) s) cf (seconds (se_sys env)) m1 m2
       /\ first_made c d (hash_number m1) (nonces (se_rnd env)) a b
       /\ (same (cv_n c) (hash_number m1) (hash_number m2) \/ same (cv_n c) (hash_number m1 + hash_number m2 + 2 * a * d) 0 \/ a + cv_n c < cv_p c).
Proof. exact @ec_tampering. Qed.
Print Assumptions C92_tampering.

(** Keys on P-256, and numbers drawn. *)
Example C92_p256_case : ec_keys p256 p256_private [] p256_key 1 (Some (cv_gx p256, cv_gy p256)) /\ enough_draws p256 1 p256_nonces.
Proof. exact (conj (p256_keys []) p256_draws). Qed.
(** A small curve, keys and enough numbers. *)
Example C92_case (rp rq : str -> option (N * N)) : let cy := rsa_over rp rq (ecdsa_over small_curve small_private small_nonces) in
  good_curve small_curve /\ ec_keys small_curve small_private [] small_key 7 (Some (0, 6)) /\ enough_draws small_curve 7 small_nonces
  /\ exists sg vf, ring_signs cy (RingKeys Some Some Some) EcdsaP256Sha256 [] sg /\ ring_verifies cy EcdsaP256Sha256 small_key vf
       /\ signs_with cy ECDSA_P256_SHA256 [] sg /\ verifies_by cy ECDSA_P256_SHA256 small_key vf.
Proof. exact (ecdsa_case rp rq). Qed.
Example C92_accepted (rp rq : str -> option (N * N)) : exists tag,
  cy_verify (rsa_over rp rq (ecdsa_over small_curve small_private small_nonces)) ECDSA_P256_SHA256 small_key $"abc" tag = true /\ List.length tag = 8%nat.
Proof. exact (accepted_case rp rq). Qed.
Example C92_two_texts_case : 0 < 1 < cv_n small_curve /\ multiple small_curve (Some (5, 1)) (Z.to_nat 1) (Some (5, 1)) /\ ~ same 19 5 0
  /\ ~ same 19 (hash_number $"abc") (hash_number Tests.hello_body) /\ ~ same 19 (hash_number $"abc" + hash_number Tests.hello_body) 0.
Proof. exact two_messages_case. Qed.
Example C92_no_keys : forall Q, ~ public_point small_curve (byte 2 :: be_bytes 32 5) Q /\ ~ public_point small_curve (byte 4 :: be_bytes 32 5 ++ be_bytes 32 2) Q
  /\ ~ public_point small_curve [byte 0] Q.
Proof. exact small_others. Qed.
