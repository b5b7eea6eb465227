(** The schemes that algorithm names denote (draft-ietf-httpbis-message-signatures,
    section 3.3, and the names of this crate).  Nothing here models code. *)
From Verif Require Export Spec Algorithm.

Inductive denotes : str -> scheme -> Prop :=
| d_15_256 : denotes $"rsa-v1_5-sha256" PKCS1_SHA256
| d_15_512 : denotes $"rsa-v1_5-sha512" PKCS1_SHA512
| d_pss_256 : denotes $"rsa-pss-sha256" PSS_SHA256
| d_pss_512 : denotes $"rsa-pss-sha512" PSS_SHA512
| d_ecdsa : denotes $"ecdsa-p256-sha256" ECDSA_P256_SHA256.
(** The scheme the name of a type promises. *)
Definition promised (t : key_type) : scheme :=
  match t with
  | RsaSha256 => PKCS1_SHA256 | RsaSha512 => PKCS1_SHA512 | RsaPssSha256 => PSS_SHA256 | RsaPssSha512 => PSS_SHA512
  | EcdsaP256Sha256 => ECDSA_P256_SHA256
  end.
(** A signer or verifier is scheme [s] of a library under a key. *)
Definition signs_with (cy : crypto) (s : scheme) (key : str) (sg : http_signer) : Prop :=
  forall rnd msg, sg_sign sg rnd msg = b64_bits (cy_sign cy s key rnd msg).
Definition verifies_by (cy : crypto) (s : scheme) (key : str) (vf : http_verifier) : Prop :=
  forall msg sig, vf_verify vf msg sig = true <-> exists tag, sig = b64_bits tag /\ cy_verify cy s key msg tag = true.
