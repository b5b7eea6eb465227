(** Properties about signature algorithms: C29, C47, C50, C51. *)
From Verif Require Import Spec AlgFacts ShaFacts Samples.

(** C29: a message has exactly one valid HMAC signature text. *)
Theorem C29_hmac_text_is_canonical : forall (key msg sig : str) (rnd : N),
  (vf_verify (hmac_sha256_verifier key) msg sig = true <-> sig = sg_sign (hmac_sha256_signer key) rnd msg)
  /\ (vf_verify (hmac_sha512_verifier key) msg sig = true <-> sig = sg_sign (hmac_sha512_signer key) rnd msg).
Proof. exact hmac_iff. Qed.
Print Assumptions C29_hmac_text_is_canonical.
(** The decoder accepts exactly the base64 texts (specified bit by bit in Spec.v). *)
Theorem C29_base64_decoding_is_canonical : forall t s : str, b64_decode t = Some s <-> t = b64_bits s.
Proof. exact decode_bits. Qed.
Print Assumptions C29_base64_decoding_is_canonical.
(** Asymmetric algorithms: a signature text is the base64 text of a tag the primitive
    accepts, so it is determined by the tag. *)
Theorem C29_ring_text_is_canonical : forall (cy : crypto) (t : key_type) (key msg sig : str),
  vf_verify (ring_verifier cy t key) msg sig = true <->
  exists tag, sig = b64_bits tag /\ cy_verify cy (ring_verify_scheme t) key msg tag = true.
Proof. exact ring_verify_tag. Qed.
Print Assumptions C29_ring_text_is_canonical.
Example C29_case :
  vf_verify (hmac_sha256_verifier $"password") $"hello" $"euYV5phWfl4VEt2BQOdAvU1l36TbGV2AyjJ95jArSmM=" = true
  /\ vf_verify (hmac_sha256_verifier $"password") $"hello" $"euYV5phWfl4VEt2BQOdAvU1l36TbGV2AyjJ95jArSmN=" = false
  /\ vf_verify (hmac_sha256_verifier $"password") $"hello" $"euYV5phWfl4VEt2BQOdAvU1l36TbGV2AyjJ95jArSmM" = false.
Proof. vm_compute. repeat split; reflexivity. Qed.

(** C47: false.  Keys that differ in trailing zero bytes (up to the block size), and a long
    key and its hash, are the same key: for every message and signature text. *)
Theorem C47_zero_padded_keys_agree : forall (key : str) (n : nat) (rnd : N) (msg sig : str),
  ((List.length key + n <= 64)%nat ->
     sg_sign (hmac_sha256_signer (key ++ repeat zero n)) rnd msg = sg_sign (hmac_sha256_signer key) rnd msg
     /\ vf_verify (hmac_sha256_verifier (key ++ repeat zero n)) msg sig = vf_verify (hmac_sha256_verifier key) msg sig)
  /\ ((List.length key + n <= 128)%nat ->
     sg_sign (hmac_sha512_signer (key ++ repeat zero n)) rnd msg = sg_sign (hmac_sha512_signer key) rnd msg
     /\ vf_verify (hmac_sha512_verifier (key ++ repeat zero n)) msg sig = vf_verify (hmac_sha512_verifier key) msg sig).
Proof. exact hmac_padded_keys. Qed.
Print Assumptions C47_zero_padded_keys_agree.
Theorem C47_long_keys_are_hashed : forall (key : str) (rnd : N) (msg sig : str),
  ((64 < List.length key)%nat ->
     sg_sign (hmac_sha256_signer (sha256 key)) rnd msg = sg_sign (hmac_sha256_signer key) rnd msg
     /\ vf_verify (hmac_sha256_verifier (sha256 key)) msg sig = vf_verify (hmac_sha256_verifier key) msg sig)
  /\ ((128 < List.length key)%nat ->
     sg_sign (hmac_sha512_signer (sha512 key)) rnd msg = sg_sign (hmac_sha512_signer key) rnd msg
     /\ vf_verify (hmac_sha512_verifier (sha512 key)) msg sig = vf_verify (hmac_sha512_verifier key) msg sig).
Proof. exact hmac_long_keys. Qed.
Print Assumptions C47_long_keys_are_hashed.
Theorem C47_distinct_keys_refuted : exists k1 k2 : str, k1 <> k2 /\ forall (rnd : N) (msg : str),
  sg_sign (hmac_sha256_signer k1) rnd msg = sg_sign (hmac_sha256_signer k2) rnd msg
  /\ sg_sign (hmac_sha512_signer k1) rnd msg = sg_sign (hmac_sha512_signer k2) rnd msg.
Proof.
  exists ($"k" ++ repeat zero 1), $"k". split; [discriminate|]. intros rnd msg.
  split; apply (hmac_padded_keys $"k" 1 rnd msg []); cbn; lia.
Qed.
Print Assumptions C47_distinct_keys_refuted.
Example C47_case : (List.length $"secret" + 3 <= 64)%nat /\ $"secret" ++ repeat zero 3 <> $"secret".
Proof. split; [cbn; lia|discriminate]. Qed.

(** C50: lengths of signature texts and digests, whatever the key and message. *)
Theorem C50_text_lengths : forall (key msg : str) (rnd : N),
  List.length (sg_sign (hmac_sha256_signer key) rnd msg) = 44%nat /\ List.length (sg_sign (hmac_sha512_signer key) rnd msg) = 88%nat
  /\ List.length (dg_digest sha256_digest msg) = 44%nat /\ List.length (dg_digest sha512_digest msg) = 88%nat.
Proof. exact hmac_text_lengths. Qed.
Print Assumptions C50_text_lengths.
(** No shortened tag is accepted. *)
Theorem C50_accepted_lengths : forall key msg sig : str,
  (vf_verify (hmac_sha256_verifier key) msg sig = true -> List.length sig = 44%nat)
  /\ (vf_verify (hmac_sha512_verifier key) msg sig = true -> List.length sig = 88%nat).
Proof.
  intros key msg sig. destruct (hmac_iff key msg sig 0) as [A B]. destruct (hmac_text_lengths key msg 0) as (L1 & L2 & _).
  split; [rewrite A|rewrite B]; intros ->; assumption.
Qed.
Print Assumptions C50_accepted_lengths.
Example C50_case : vf_verify (hmac_sha256_verifier $"password") $"hello" $"euYV5phWfl4VEt2BQOdAvU1l36TbGV2AyjJ95jArSmM=" = true.
Proof. exact (proj1 C29_case). Qed.

(** C51: the name an algorithm reports denotes the scheme it signs and verifies with.
    ring: always; the type is what it is called, except for RsaPssSha256. *)
Theorem C51_ring_names : forall (cy : crypto) (t : key_type), exists s, forall key,
  denotes (sg_name (ring_signer cy t key)) s /\ denotes (vf_name (ring_verifier cy t key)) s
  /\ signs_with cy s key (ring_signer cy t key) /\ verifies_by cy s key (ring_verifier cy t key)
  /\ (t <> RsaPssSha256 -> s = promised t).
Proof. exact ring_names. Qed.
Print Assumptions C51_ring_names.
(** The HMAC algorithms, under these names. *)
Theorem C51_hmac_names : forall key : str,
  sg_name (hmac_sha256_signer key) = $"hmac-sha256" /\ vf_name (hmac_sha256_verifier key) = $"hmac-sha256"
  /\ sg_name (hmac_sha512_signer key) = $"hmac-sha512" /\ vf_name (hmac_sha512_verifier key) = $"hmac-sha512".
Proof. intro key. repeat split. Qed.
Print Assumptions C51_hmac_names.
(** RsaPssSha256 of ring is RSA-PSS with SHA-512, under that name. *)
Theorem C51_ring_type_refuted : exists cy : crypto, exists key,
  sg_name (ring_signer cy RsaPssSha256 key) = $"rsa-pss-sha512" /\ ~ verifies_by cy (promised RsaPssSha256) key (ring_verifier cy RsaPssSha256 key).
Proof.
  exists (Crypto (fun _ _ _ _ => []) (fun s _ _ _ => match s with PSS_SHA256 => true | _ => false end)), [].
  split; [reflexivity|]. intro H. assert (X : vf_verify (ring_verifier (Crypto (fun _ _ _ _ => []) (fun s _ _ _ => match s with PSS_SHA256 => true | _ => false end)) RsaPssSha256 []) [] [] = true).
  { apply H. exists []. split; reflexivity. }
  discriminate X.
Qed.
Print Assumptions C51_ring_type_refuted.
(** openssl: the PKCS#1 types ... *)
Theorem C51_openssl_names_partial : forall (cy : crypto) (t : key_type) (key : str) (sg : http_signer) (vf : http_verifier),
  t = RsaSha256 \/ t = RsaSha512 -> openssl_signer cy t key = Some sg -> openssl_verifier cy t key = Some vf ->
  denotes (sg_name sg) (promised t) /\ denotes (vf_name vf) (promised t)
  /\ signs_with cy (promised t) key sg /\ verifies_by cy (promised t) key vf.
Proof. exact openssl_names. Qed.
Print Assumptions C51_openssl_names_partial.
(** ... but the PSS types are PKCS#1 too, under the PSS names. *)
Theorem C51_openssl_pss_is_pkcs1_refuted : forall (cy : crypto) (t : key_type) (key : str) (sg : http_signer) (vf : http_verifier),
  t = RsaPssSha256 \/ t = RsaPssSha512 -> openssl_signer cy t key = Some sg -> openssl_verifier cy t key = Some vf ->
  denotes (sg_name sg) (promised t) /\ denotes (vf_name vf) (promised t)
  /\ exists s, (s = PKCS1_SHA256 \/ s = PKCS1_SHA512) /\ signs_with cy s key sg /\ verifies_by cy s key vf.
Proof. exact openssl_pss. Qed.
Print Assumptions C51_openssl_pss_is_pkcs1_refuted.
Example C51_case : let cy := Crypto (fun s k _ m => k ++ m) (fun s k m t => str_eqb t (k ++ m)) in
  vf_verify (ring_verifier cy RsaSha256 $"k") $"m" (sg_sign (ring_signer cy RsaSha256 $"k") 0 $"m") = true
  /\ exists sg vf, openssl_signer cy RsaPssSha256 $"k" = Some sg /\ openssl_verifier cy RsaPssSha256 $"k" = Some vf.
Proof. split; [vm_compute; reflexivity|]. eexists _, _. split; reflexivity. Qed.
