(** Libraries that can fail.  Nothing here models code. *)
From Verif Require Export SpecAuto Fail.

(** What OpenSSL does, from its documentation: contexts can be made for a key and a digest unless
    the key is of an Edwards curve (these take no digest); PKCS#1 v1.5 padding can be set for plain
    RSA keys only; a signature with it needs a modulus of the encoded digest (19 bytes and the
    digest) and eleven bytes of padding. *)
Definition digest_bytes (h : md) : N := match h with MdSha256 => 32 | MdSha512 => 64 end.
Record openssl_rules (o : ossl) : Prop := OpensslRules {
  or_signer : forall h k, os_signer o h k = true <-> forall x, k <> PEdwards x;
  or_verifier : forall h k, os_verifier o h k = true <-> forall x, k <> PEdwards x;
  or_padding : forall k, os_padding o k = true <-> exists n x, k = PRsa n x;
  or_sign : forall h n x m, (exists tag, os_sign o h (PRsa n x) m = Some tag) <-> (19 + digest_bytes h + 11 <= n)%N
}.

(** The configuration with another [http_sign]. *)
Definition signing_with (c : signing_config) (g : N -> str -> str) : signing_config :=
  SigningConfig (sc_label c) (HttpSigner (sg_name (sc_signature c)) g) (sc_digest c) (sc_key_id c) (sc_nonce c) (sc_components c)
    (sc_compute_digest c) (sc_add_date c) (sc_add_host c) (sc_skip_missing c) (sc_created c) (sc_expires c).
