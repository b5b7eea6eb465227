(** RSA signatures, written from RFC 8017 (PKCS #1 2.2).  Nothing here models code. *)
From Verif Require Export SpecKey SpecSha.
Local Open Scope N_scope.

(** Section 3: the modulus is a product of different primes; the exponents are inverses modulo
    each prime less one. *)
Definition is_prime (p : N) : Prop := 1 < p /\ forall d, (d | p) -> d = 1 \/ d = p.
Definition rsa_numbers (n e d : N) : Prop :=
  exists ps, NoDup ps /\ Forall is_prime ps /\ n = fold_right N.mul 1 ps
    /\ Forall (fun p => exists k, e * d = 1 + k * (p - 1)) ps.

(** ** Lengths *)
(** A number of [b] bits, of [k] bytes. *)
Definition has_bits (n b : N) : Prop := 1 <= b /\ 2 ^ (b - 1) <= n < 2 ^ b.
Definition has_bytes (n : N) (k : nat) : Prop := (1 <= k)%nat /\ 256 ^ (N.of_nat k - 1) <= n < 256 ^ N.of_nat k.

(** ** The hash functions in use *)
Inductive hashing := With_SHA256 | With_SHA512.
Definition digest_of (h : hashing) : str -> str := match h with With_SHA256 => sha256 | With_SHA512 => sha512 end.
Definition digest_size (h : hashing) : nat := match h with With_SHA256 => 32 | With_SHA512 => 64 end.
(** id-sha256, id-sha512: 2.16.840.1.101.3.4.2.1 and .3 *)
Definition digest_oid (h : hashing) : str :=
  map ascii_of_N [2 * 40 + 16; 128 + 840 / 128; 840 mod 128; 1; 101; 3; 4; 2; match h with With_SHA256 => 1 | With_SHA512 => 3 end].
(** DigestInfo: the algorithm (no parameters) and the digest, in DER. *)
Definition digest_info (oid digest s : str) : Prop :=
  exists id null algorithm octets,
    tagged 6 oid id /\ tagged 5 [] null /\ tagged 48 (id ++ null) algorithm
    /\ tagged 4 digest octets /\ tagged 48 (algorithm ++ octets) s.

(** ** RSASSA-PKCS1-v1_5 (sections 8.2, 9.2) *)
Definition byte (n : N) : ascii := ascii_of_N n.
(** The block for a message: 00 01, at least eight bytes ff, 00, DigestInfo. *)
Definition pkcs1_block (h : hashing) (msg : str) (k : nat) (em : str) : Prop :=
  exists ff info, digest_info (digest_oid h) (digest_of h msg) info
    /\ Forall (eq (byte 255)) ff /\ (8 <= List.length ff)%nat
    /\ em = [byte 0; byte 1] ++ ff ++ [byte 0] ++ info /\ List.length em = k.
(** The tags that verify with a public key. *)
Definition opens (n e : N) (tag em : str) : Prop :=
  has_bytes n (List.length tag) /\ big_endian tag < n /\ big_endian tag ^ e mod n = big_endian em.
Definition pkcs1_signature (h : hashing) (n e : N) (msg tag : str) : Prop :=
  exists em, pkcs1_block h msg (List.length tag) em /\ opens n e tag em.

(** ** RSASSA-PSS (sections 8.1, 9.1), with a salt as long as the digest and MGF1 with the
    same hash function *)
(** The mask: the digests of the seed with a counter of four bytes, one after another. *)
Definition mask_bytes (h : hashing) (seed mask : str) : Prop :=
  forall i c, nth_error mask i = Some c ->
    exists counter, List.length counter = 4%nat
      /\ big_endian counter = N.of_nat (Nat.div i (digest_size h)) mod 2 ^ 32
      /\ nth_error (digest_of h (seed ++ counter)) (Nat.modulo i (digest_size h)) = Some c.
(** The bytes [c] are [a] xor [b], with the first [z] bits cleared. *)
Definition masked_by (z : nat) (a b c : str) : Prop :=
  List.length b = List.length a /\ List.length c = List.length a
  /\ forall i x y w, nth_error a i = Some x -> nth_error b i = Some y -> nth_error c i = Some w ->
       forall j, (j < 8)%nat ->
         bit (code w) j = if Nat.ltb (8 * i + (7 - j)) z then false else xorb (bit (code x) j) (bit (code y) j).
(** The block of [b] bits for a message and a salt. *)
Definition pss_block (h : hashing) (msg salt : str) (b : N) (em : str) : Prop :=
  exists zeros mask masked hash z,
    let db := zeros ++ [byte 1] ++ salt in
    8 * N.of_nat (List.length em) = b + N.of_nat z /\ (z < 8)%nat
    /\ List.length salt = digest_size h
    /\ hash = digest_of h (repeat (byte 0) 8 ++ digest_of h msg ++ salt)
    /\ Forall (eq (byte 0)) zeros
    /\ mask_bytes h hash mask /\ masked_by z db mask masked
    /\ em = masked ++ hash ++ [byte 188].
Definition pss_signature (h : hashing) (n e : N) (msg salt tag : str) : Prop :=
  exists b em, has_bits n b /\ pss_block h msg salt (b - 1) em /\ opens n e tag em.

(** ** The schemes *)
Definition pkcs1_with (h : hashing) : scheme := match h with With_SHA256 => PKCS1_SHA256 | With_SHA512 => PKCS1_SHA512 end.
Definition pss_with (h : hashing) : scheme := match h with With_SHA256 => PSS_SHA256 | With_SHA512 => PSS_SHA512 end.
(** Moduli large enough for the blocks of a scheme: 62, 94 bytes; 522, 1034 bits. *)
Definition room (s : scheme) (n : N) : Prop :=
  match s with
  | PKCS1_SHA256 => 256 ^ 61 <= n | PKCS1_SHA512 => 256 ^ 93 <= n
  | PSS_SHA256 => 2 ^ 521 <= n | PSS_SHA512 => 2 ^ 1033 <= n
  | ECDSA_P256_SHA256 => False
  end.
(** Two keys with the numbers of an RSA key, given what numbers private and public keys hold. *)
Definition rsa_keys (private public : str -> option (N * N)) (s : scheme) (sk pk : str) (n e d : N) : Prop :=
  private sk = Some (n, d) /\ public pk = Some (n, e) /\ rsa_numbers n e d /\ room s n.

(** ** Public keys in DER: RSAPublicKey, appendix A.1.1 *)
(** A positive INTEGER in as few bytes as two's complement allows. *)
Definition der_integer (s : str) (x : N) : Prop :=
  0 < x /\ big_endian s = x /\ x < 128 * 256 ^ (N.of_nat (List.length s) - 1)
  /\ (List.length s = 1%nat \/ 128 * 256 ^ (N.of_nat (List.length s) - 2) <= x).
Definition rsa_public_numbers (key : str) (n e : N) : Prop :=
  exists nb eb modulus exponent, der_integer nb n /\ der_integer eb e
    /\ tagged 2 nb modulus /\ tagged 2 eb exponent /\ tagged 48 (modulus ++ exponent) key.
(** What ring takes: odd numbers, a modulus of 256 to 1024 bytes, an exponent from 3 to 2^33 - 1. *)
Definition ring_takes (n e : N) : Prop :=
  N.Odd n /\ 256 ^ 255 <= n < 256 ^ 1024 /\ N.Odd e /\ 3 <= e < 2 ^ 33.

(** ** Collisions *)
Definition collision (h : hashing) (x y : str) : Prop := x <> y /\ digest_of h x = digest_of h y.
(** What accepting the signature of one text for another text means. *)
Definition confused (s : scheme) (m1 m2 : str) : Prop :=
  (exists h, s = pkcs1_with h /\ collision h m1 m2)
  \/ exists h, s = pss_with h /\ (collision h m1 m2
       \/ exists salt salt', collision h (repeat (byte 0) 8 ++ digest_of h m1 ++ salt) (repeat (byte 0) 8 ++ digest_of h m2 ++ salt')).
