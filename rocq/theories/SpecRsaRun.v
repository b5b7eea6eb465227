(** The validator with RSA keys in files.  Nothing here models code. *)
From Verif Require Export SpecRsaKey SpecOpt SpecRun.
Local Open Scope N_scope.

(** The validator with ring as in RsaKey.v; the files, the rest of ring and the URL parser are arbitrary. *)
Definition rsa_world (files : str -> option str) (ec : str -> option str) (ecdsa : crypto) (parse : url_parser) (trace : bool) : world :=
  World files (RingKeys ring_rsa_pkcs8 ring_rsa_der ec) (ring_rsa_over ecdsa) parse trace.
(** A signature of RFC 8017 of a type (the type RsaPssSha256 is with SHA-512 too, C51). *)
Definition rsa_tag (t : key_type) (n e : N) (msg tag : str) : Prop :=
  match t with
  | RsaSha256 => pkcs1_signature With_SHA256 n e msg tag
  | RsaSha512 => pkcs1_signature With_SHA512 n e msg tag
  | RsaPssSha256 | RsaPssSha512 => exists salt, pss_signature With_SHA512 n e msg salt tag
  | EcdsaP256Sha256 => False
  end.
(** A PEM file with a private key. *)
Definition private_pem (text : str) (n e d p q dp dq qinv : N) : Prop :=
  exists label b key, pem_file text label b /\ short_file b /\ rsa_pkcs8 key b /\ rsa_private_key n e d p q dp dq qinv key.
(** A PEM file with a public key: RSAPublicKey, or SubjectPublicKeyInfo for the type that takes it (C56). *)
Definition public_pem (t : key_type) (text : str) (n e : N) : Prop :=
  exists label b, pem_file text label b
    /\ (rsa_public_numbers b n e \/ t = RsaSha256 /\ exists oid key, spki oid key b /\ rsa_public_numbers key n e).
