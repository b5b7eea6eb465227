(** Lemmas about Algorithm.v. *)
From Verif Require Export StrFacts Base64Facts SpecFacts Algorithm SpecAlg.

Lemma hmac_verify_iff (mac : str -> str) (msg sig : str) :
  hmac_http_verify mac msg sig = true <-> sig = hmac_http_sign mac msg.
Proof.
  unfold hmac_http_verify, hmac_http_sign. split.
  - destruct (b64_decode sig) as [tag|] eqn:E; [|discriminate]. intro H. apply str_eqb_eq in H. subst tag.
    symmetry. now apply b64_encode_decode.
  - intros ->. rewrite b64_decode_encode. apply str_eqb_refl.
Qed.
Lemma raw_verify_iff (v : str -> str -> bool) (msg sig : str) :
  raw_http_verify v msg sig = true <-> exists tag, sig = b64_encode tag /\ v msg tag = true.
Proof.
  unfold raw_http_verify. split.
  - destruct (b64_decode sig) as [tag|] eqn:E; [|discriminate]. intro H. exists tag.
    split; [symmetry; now apply b64_encode_decode|exact H].
  - intros (tag & -> & H). now rewrite b64_decode_encode.
Qed.
Lemma decode_bits (t s : str) : b64_decode t = Some s <-> t = b64_bits s.
Proof. rewrite b64_bits_encode. apply b64_decode_iff. Qed.
Lemma hmac256_iff (key msg sig : str) (rnd : N) :
  vf_verify (hmac_sha256_verifier key) msg sig = true <-> sig = sg_sign (hmac_sha256_signer key) rnd msg.
Proof. apply hmac_verify_iff. Qed.
Lemma hmac512_iff (key msg sig : str) (rnd : N) :
  vf_verify (hmac_sha512_verifier key) msg sig = true <-> sig = sg_sign (hmac_sha512_signer key) rnd msg.
Proof. apply hmac_verify_iff. Qed.
Lemma hmac_iff (key msg sig : str) (rnd : N) :
  (vf_verify (hmac_sha256_verifier key) msg sig = true <-> sig = sg_sign (hmac_sha256_signer key) rnd msg)
  /\ (vf_verify (hmac_sha512_verifier key) msg sig = true <-> sig = sg_sign (hmac_sha512_signer key) rnd msg).
Proof. split; apply hmac_verify_iff. Qed.
Lemma ring_verify_tag (cy : crypto) (t : key_type) (key msg sig : str) :
  vf_verify (ring_verifier cy t key) msg sig = true <->
  exists tag, sig = b64_bits tag /\ cy_verify cy (ring_verify_scheme t) key msg tag = true.
Proof.
  cbn [vf_verify ring_verifier]. rewrite raw_verify_iff. split; intros (tag & H1 & H2); exists tag; (split; [|exact H2]).
  - now rewrite b64_bits_encode. - now rewrite <- b64_bits_encode.
Qed.

(** ** Names and schemes *)
Lemma raw_signs (cy : crypto) (s : scheme) (key n : str) : signs_with cy s key (HttpSigner n (raw_http_sign (cy_sign cy s key))).
Proof. intros rnd msg. cbn [sg_sign]. unfold raw_http_sign. symmetry. apply b64_bits_encode. Qed.
Lemma raw_verifies (cy : crypto) (s : scheme) (key n : str) : verifies_by cy s key (HttpVerifier n (raw_http_verify (cy_verify cy s key))).
Proof.
  intros msg sig. cbn [vf_verify]. rewrite raw_verify_iff. split; intros (tag & A & B); exists tag; (split; [|exact B]); rewrite A;
    [symmetry|]; apply b64_bits_encode.
Qed.
Lemma ring_names (cy : crypto) (t : key_type) : exists s, forall key,
  denotes (sg_name (ring_signer cy t key)) s /\ denotes (vf_name (ring_verifier cy t key)) s
  /\ signs_with cy s key (ring_signer cy t key) /\ verifies_by cy s key (ring_verifier cy t key)
  /\ (t <> RsaPssSha256 -> s = promised t).
Proof.
  exists (ring_sign_scheme t). intro key. split; [destruct t; constructor|]. split; [destruct t; constructor|].
  split; [apply raw_signs|]. split; [replace (ring_sign_scheme t) with (ring_verify_scheme t) by (now destruct t); apply raw_verifies|].
  destruct t; (reflexivity || (intro N; now contradiction N)).
Qed.
Lemma openssl_names (cy : crypto) (t : key_type) (key : str) (sg : http_signer) (vf : http_verifier) :
  t = RsaSha256 \/ t = RsaSha512 -> openssl_signer cy t key = Some sg -> openssl_verifier cy t key = Some vf ->
  denotes (sg_name sg) (promised t) /\ denotes (vf_name vf) (promised t)
  /\ signs_with cy (promised t) key sg /\ verifies_by cy (promised t) key vf.
Proof.
  intros [-> | ->] S V; cbn in S, V; injection S as <-; injection V as <-;
    (split; [constructor|]; split; [constructor|]; split; [apply raw_signs|apply raw_verifies]).
Qed.
Lemma openssl_pss (cy : crypto) (t : key_type) (key : str) (sg : http_signer) (vf : http_verifier) :
  t = RsaPssSha256 \/ t = RsaPssSha512 -> openssl_signer cy t key = Some sg -> openssl_verifier cy t key = Some vf ->
  denotes (sg_name sg) (promised t) /\ denotes (vf_name vf) (promised t)
  /\ exists s, (s = PKCS1_SHA256 \/ s = PKCS1_SHA512) /\ signs_with cy s key sg /\ verifies_by cy s key vf.
Proof.
  intros [-> | ->] S V; cbn in S, V; injection S as <-; injection V as <-;
    (split; [constructor|]; split; [constructor|]; eexists; split; [|split; [apply raw_signs|apply raw_verifies]]); auto.
Qed.
