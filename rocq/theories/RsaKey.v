(** RSA private keys: what [RsaKeyPair::from_pkcs8] and [from_der] of [ring] 0.16 read, as
    called in src/algorithm/ring.rs:25-49, and how [RsaKeyPair::sign] computes with the primes
    (called in src/algorithm/ring.rs:84-96, where a failure panics).
    A dependency, modelled from its published sources ([rsa::signing], [arithmetic::bigint]).
    The kind of error and the failures of the random source are not modelled (for those see Fail.v). *)
From Verif Require Export EcdsaKey Fail.
Local Open Scope N_scope.

(** The template of RSA: rsaEncryption and NULL. *)
Definition rsa_algorithm : str := map ascii_of_N [6; 9; 42; 134; 72; 134; 247; 13; 1; 1; 1; 5; 0].

(** [io::positive::positive_integer], as often as there are numbers; then nothing may follow. *)
Fixpoint ring_positives (k : nat) (s : str) : option (list N) :=
  match k with
  | O => match s with [] => Some [] | _ => None end
  | S k' =>
      match ring_tlv tag_integer s with
      | Some (v, r) =>
          match der_positive v with
          | Some x => match ring_positives k' r with Some xs => Some (x :: xs) | None => None end
          | None => None
          end
      | None => None
      end
  end.
(** RSAPrivateKey: version 0 and eight numbers. *)
Definition rsa_fields (s : str) : option (list N) :=
  andThen (ring_only tag_sequence s) (fun body => andThen (ring_version 0 body) (ring_positives 8)).

(** [RsaKeyPair] *)
Record rsa_private := RsaPrivate {
  rp_n : N; rp_e : N;
  rp_p : N; rp_q : N;      (* the larger factor first *)
  rp_dp : N; rp_dq : N;
  rp_qinv : N
}.
(** [check_public_modulus_and_exponent] with the limits for private keys. *)
Definition ring_private_limits (n e : N) : bool :=
  N.odd n && Nat.leb 256 (byte_length (N.size n)) && (N.size n <=? 4096) && N.odd e && (65537 <=? e) && (e <=? 8589934591).
(** [PrivatePrime::new] *)
Definition prime_ok (p dp : N) : bool := N.odd p && (N.size p mod 512 =? 0) && (dp <? p) && N.odd dp.
(** [BitLength::half_rounded_up] *)
Definition half_up (bits : N) : N := bits / 2 + bits mod 2.
(** [from_der_reader] from "let public_key" on, with the factors in order. *)
Definition rsa_checked (n e d p q dp dq qinv : N) : option rsa_private :=
  let half := half_up (N.size n) in
  if ring_private_limits n e
     && (N.size p =? half) && (N.size q =? half)
     && (q <? n) && (p <? n) && ((p * q) mod n =? 0)
     && (half <? N.size d) && (d <? n) && N.odd d
     && prime_ok p dp && prime_ok q dq
     && (qinv <? p) && ((qinv * q) mod p =? 1)
  then Some (RsaPrivate n e p q dp dq qinv) else None.
(** The factors are swapped unless the first is larger; then the coefficient is computed (by a
    power that is the inverse if the factor is prime), not read. *)
Definition rsa_components (n e d p q dp dq qinv : N) : option rsa_private :=
  if q <? p then rsa_checked n e d p q dp dq qinv else rsa_checked n e d q p dq dp (pow_mod p (q - 2) q).

(** [RsaKeyPair::from_der], [RsaKeyPair::from_pkcs8] *)
Definition ring_rsa_private (b : str) : option rsa_private :=
  match rsa_fields b with Some [n; e; d; p; q; dp; dq; qinv] => rsa_components n e d p q dp dq qinv | _ => None end.
(** As parsers of keys: the key is the RSAPrivateKey. *)
Definition ring_rsa_der (b : str) : option str := match ring_rsa_private b with Some _ => Some b | None => None end.
Definition ring_rsa_pkcs8 (b : str) : option str := andThen (unwrap_key rsa_algorithm b) ring_rsa_der.

(** [RsaKeyPair::private_exponentiate]: by the Chinese remainder theorem; the result is checked with the public exponent. *)
Definition crt_power (k : rsa_private) (c : N) : option N :=
  let m1 := pow_mod c (rp_dp k) (rp_p k) in
  let m2 := pow_mod c (rp_dq k) (rp_q k) in
  let h := (rp_qinv k * ((m1 + rp_p k - m2) mod rp_p k)) mod rp_p k in
  let m := (m2 + (rp_q k * h) mod rp_n k) mod rp_n k in
  if pow_mod m (rp_e k) (rp_n k) =? c then Some m else None.
(** [RsaEncoding::encode]: the block for a message. *)
Definition rsa_encoded (s : scheme) (n rnd : N) (msg : str) : option str :=
  match s with
  | PKCS1_SHA256 | PKCS1_SHA512 => emsa_pkcs1 (rsa_hash s) (byte_length (N.size n)) msg
  | PSS_SHA256 | PSS_SHA512 => emsa_pss (rsa_hash s) (N.size n - 1) (be_bytes (hf_len (rsa_hash s)) rnd) msg
  | ECDSA_P256_SHA256 => None
  end.
(** [RsaKeyPair::sign] *)
Definition ring_rsa_sign (s : scheme) (key : str) (rnd : N) (msg : str) : option str :=
  andThen (ring_rsa_private key) (fun k =>
  andThen (rsa_encoded s (rp_n k) rnd msg) (fun em =>
  option_map (be_bytes (byte_length (N.size (rp_n k)))) (crt_power k (be_value em)))).

(** The primitives of [ring] with keys read from files (a tag of no bytes where signing fails;
    [ring_http_sign (ring_rsa_sign s key)] of Fail.v panics there). *)
Definition ring_rsa_over (ecdsa : crypto) : crypto := Crypto
  (fun s key rnd msg =>
     match s with
     | ECDSA_P256_SHA256 => cy_sign ecdsa s key rnd msg
     | _ => match ring_rsa_sign s key rnd msg with Some tag => tag | None => [] end
     end)
  (cy_verify (rsa_over (fun _ => None) ring_rsa_public ecdsa)).
(** All the parsers of private keys in [ring]. *)
Definition ring_parsers (c : curve) : ring_keys := ring_keys_over c ring_rsa_pkcs8 ring_rsa_der.
