(** src/algorithm.rs, src/algorithm/ring.rs, src/algorithm/openssl.rs. *)
From Verif Require Export Str Base64 Sha2.

(** ** Traits as records of operations *)

(** src/algorithm.rs:18-25 [HttpSignatureSign].  The first argument of [sg_sign] is
    the randomness drawn from [SystemRandom] (ring.rs:90,193); deterministic schemes
    ignore it. *)
Record http_signer := HttpSigner { sg_name : str; sg_sign : N -> str -> str }.

(** src/algorithm.rs:29-36 [HttpSignatureVerify]: message, then signature text. *)
Record http_verifier := HttpVerifier { vf_name : str; vf_verify : str -> str -> bool }.

(** src/algorithm.rs:41-49 [HttpDigest]. *)
Record http_digest := HttpDigest { dg_name : str; dg_digest : str -> str }.

(** ** HMAC, src/algorithm.rs:51-96 *)

(** Lines 67-73 [http_sign]. *)
Definition hmac_http_sign (mac : str -> str) (msg : str) : str := b64_encode (mac msg).

(** Lines 79-87 [http_verify]: decode, then compare the whole tag ([verify_slice]). *)
Definition hmac_http_verify (mac : str -> str) (msg sig : str) : bool :=
  match b64_decode sig with
  | Some tag => str_eqb (mac msg) tag
  | None => false
  end.

(** Lines 60-65 [new]: the keyed MAC.  Block sizes of SHA-256 and SHA-512. *)
Definition mac_sha256 (key : str) : str -> str := hmac sha256 64 key.
Definition mac_sha512 (key : str) : str -> str := hmac sha512 128 key.

(** Line 95. *)
Definition hmac_sha256_signer (key : str) : http_signer :=
  HttpSigner $"hmac-sha256" (fun _ => hmac_http_sign (mac_sha256 key)).
Definition hmac_sha256_verifier (key : str) : http_verifier :=
  HttpVerifier $"hmac-sha256" (hmac_http_verify (mac_sha256 key)).

(** Line 96. *)
Definition hmac_sha512_signer (key : str) : http_signer :=
  HttpSigner $"hmac-sha512" (fun _ => hmac_http_sign (mac_sha512 key)).
Definition hmac_sha512_verifier (key : str) : http_verifier :=
  HttpVerifier $"hmac-sha512" (hmac_http_verify (mac_sha512 key)).

(** ** Digests, src/algorithm.rs:98-114 *)
Definition sha256_digest : http_digest := HttpDigest $"SHA-256" (fun b => b64_encode (sha256 b)).
Definition sha512_digest : http_digest := HttpDigest $"SHA-512" (fun b => b64_encode (sha512 b)).

(** ** Asymmetric algorithms

    The primitives themselves (ring, openssl) are arguments: a [crypto] is any pair of keyed functions, indexed by the scheme the
    code asks the library for; Rsa.v and Ecdsa.v define some.  [cy_sign] returns the raw tag ("Signing should be
    infallible": a failure of the primitive, a panic in the code, is not modelled). *)
Inductive scheme := PKCS1_SHA256 | PKCS1_SHA512 | PSS_SHA256 | PSS_SHA512 | ECDSA_P256_SHA256.

Record crypto := Crypto {
  cy_sign : scheme -> str -> N -> str -> str;          (* private key, randomness, message *)
  cy_verify : scheme -> str -> str -> str -> bool      (* public key, message, tag *)
}.

(** The exported types. *)
Inductive key_type := RsaSha256 | RsaSha512 | RsaPssSha256 | RsaPssSha512 | EcdsaP256Sha256.

(** src/algorithm/ring.rs:223-227: the scheme each type signs with, verifies with,
    and the name it reports. *)
Definition ring_sign_scheme (t : key_type) : scheme :=
  match t with
  | RsaSha256 => PKCS1_SHA256 | RsaSha512 => PKCS1_SHA512
  | RsaPssSha256 => PSS_SHA512 | RsaPssSha512 => PSS_SHA512
  | EcdsaP256Sha256 => ECDSA_P256_SHA256
  end.
Definition ring_verify_scheme (t : key_type) : scheme :=
  match t with
  | RsaSha256 => PKCS1_SHA256 | RsaSha512 => PKCS1_SHA512
  | RsaPssSha256 => PSS_SHA512 | RsaPssSha512 => PSS_SHA512
  | EcdsaP256Sha256 => ECDSA_P256_SHA256
  end.
Definition ring_name (t : key_type) : str :=
  match t with
  | RsaSha256 => $"rsa-v1_5-sha256" | RsaSha512 => $"rsa-v1_5-sha512"
  | RsaPssSha256 => $"rsa-pss-sha512" | RsaPssSha512 => $"rsa-pss-sha512"
  | EcdsaP256Sha256 => $"ecdsa-p256-sha256"
  end.

(** src/algorithm/openssl.rs:80-83,97-98,115-118: PKCS#1 v1.5 padding throughout
    (no ECDSA type). *)
Definition openssl_scheme (t : key_type) : option scheme :=
  match t with
  | RsaSha256 => Some PKCS1_SHA256 | RsaSha512 => Some PKCS1_SHA512
  | RsaPssSha256 => Some PKCS1_SHA256 | RsaPssSha512 => Some PKCS1_SHA512
  | EcdsaP256Sha256 => None
  end.
Definition openssl_name (t : key_type) : option str :=
  match t with
  | RsaSha256 => Some $"rsa-v1_5-sha256" | RsaSha512 => Some $"rsa-v1_5-sha512"
  | RsaPssSha256 => Some $"rsa-pss-sha256" | RsaPssSha512 => Some $"rsa-pss-sha512"
  | EcdsaP256Sha256 => None
  end.

(** ring.rs:84-96,189-196; openssl.rs:78-86 [http_sign]: base64 of the tag. *)
Definition raw_http_sign (sign : N -> str -> str) (rnd : N) (msg : str) : str := b64_encode (sign rnd msg).

(** ring.rs:101-114,202-215; openssl.rs:91-107 [http_verify]: base64, then the primitive. *)
Definition raw_http_verify (verify : str -> str -> bool) (msg sig : str) : bool :=
  match b64_decode sig with
  | Some tag => verify msg tag
  | None => false
  end.

(** src/algorithm/ring.rs:84-100,189-200 [HttpSignatureSign]; 101-118,202-219
    [HttpSignatureVerify]. *)
Definition ring_signer (cy : crypto) (t : key_type) (key : str) : http_signer :=
  HttpSigner (ring_name t) (raw_http_sign (cy_sign cy (ring_sign_scheme t) key)).
Definition ring_verifier (cy : crypto) (t : key_type) (key : str) : http_verifier :=
  HttpVerifier (ring_name t) (raw_http_verify (cy_verify cy (ring_verify_scheme t) key)).

(** src/algorithm/openssl.rs:78-90 [HttpSignatureSign]; 91-111 [HttpSignatureVerify]. *)
Definition openssl_signer (cy : crypto) (t : key_type) (key : str) : option http_signer :=
  match openssl_scheme t, openssl_name t with
  | Some s, Some n => Some (HttpSigner n (raw_http_sign (cy_sign cy s key)))
  | _, _ => None
  end.
Definition openssl_verifier (cy : crypto) (t : key_type) (key : str) : option http_verifier :=
  match openssl_scheme t, openssl_name t with
  | Some s, Some n => Some (HttpVerifier n (raw_http_verify (cy_verify cy s key)))
  | _, _ => None
  end.
