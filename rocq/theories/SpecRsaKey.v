(** RSA private-key files (RFC 8017 appendix A.1.2, RFC 5208).  Nothing here models code. *)
From Verif Require Export SpecRsa SpecEcdsaKey RsaKey.
Local Open Scope N_scope.

(** RSAPrivateKey: version 0, then n, e, d, p, q, d mod (p - 1), d mod (q - 1), 1/q mod p. *)
Definition rsa_private_key (n e d p q dp dq qinv : N) (s : str) : Prop :=
  exists version numbers,
    tagged 2 [byte 0] version
    /\ Forall2 (fun x t => exists v, der_integer v x /\ tagged 2 v t) [n; e; d; p; q; dp; dq; qinv] numbers
    /\ tagged 48 (version ++ List.concat numbers) s.
(** PrivateKeyInfo with an RSA key: version 0, the algorithm, RSAPrivateKey, optionally attributes. *)
Definition rsa_pkcs8 (key s : str) : Prop :=
  exists version rsa null algorithm k attributes,
    tagged 2 [byte 0] version /\ tagged 6 oid_rsa rsa /\ tagged 5 [] null /\ tagged 48 (rsa ++ null) algorithm
    /\ tagged 4 key k /\ (attributes = [] \/ exists a, tagged 160 a attributes)
    /\ tagged 48 (version ++ algorithm ++ k ++ attributes) s.
(** What ring wants of the numbers: an odd modulus of 256 to 512 bytes and an odd exponent from
    65537 to 2^33 - 1; factors of half the bits, which are a multiple of 512; a private exponent of
    more bits than that; odd exponents; and the coefficient, unless the first factor is smaller:
    then a power of it must be 1 (as it is modulo a prime). *)
Definition ring_private (n e d p q dp dq qinv : N) : Prop :=
  N.Odd n /\ 256 ^ 255 <= n < 256 ^ 512 /\ N.Odd e /\ 65537 <= e < 2 ^ 33
  /\ (n | p * q)
  /\ (exists b, (512 | b) /\ has_bits p b /\ has_bits q b /\ (has_bits n (2 * b) \/ has_bits n (2 * b - 1)) /\ 2 ^ b <= d)
  /\ d < n /\ N.Odd d
  /\ N.Odd p /\ N.Odd q /\ dp < p /\ dq < q /\ N.Odd dp /\ N.Odd dq
  /\ (q < p -> qinv < p /\ (qinv * q) mod p = 1) /\ (p <= q -> p ^ (q - 1) mod q = 1).
(** The exponents for the factors belong to the public exponent. *)
Definition rsa_exponents (e p q dp dq : N) : Prop := rsa_numbers p e dp /\ rsa_numbers q e dq.
(** The keys that other programs make: two different primes, and the numbers as in the standard. *)
Definition standard_key (n e d p q dp dq qinv : N) : Prop :=
  is_prime p /\ is_prime q /\ p <> q /\ n = p * q
  /\ (exists k, e * d = 1 + k * (p - 1)) /\ (exists k, e * d = 1 + k * (q - 1))
  /\ dp = d mod (p - 1) /\ dq = d mod (q - 1)
  /\ qinv < p /\ (qinv * q) mod p = 1.
(** ... of sizes that ring reads. *)
Definition ring_sizes (n e d p q : N) : Prop :=
  65537 <= e < 2 ^ 33
  /\ (exists b, (b = 1024 \/ b = 1536 \/ b = 2048) /\ has_bits p b /\ has_bits q b /\ 2 ^ b <= d) /\ d < n.
