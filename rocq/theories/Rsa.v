(** RSA signatures: what [ring] 0.16 does behind src/algorithm/ring.rs:84-96,101-114 and
    [openssl] behind src/algorithm/openssl.rs:78-107 for the schemes of RFC 8017.
    Dependencies, modelled from the standard (with the limits of ring on public keys).  One
    instance of the arguments called [crypto] elsewhere.  Simplified: private operations
    compute with the modulus and the private exponent (the libraries use the primes, section
    5.1.2 2b, and get the same number: C94_same); nothing fails (a random source, a blinding). *)
From Verif Require Export KeyFile.
Local Open Scope N_scope.

(** ** Numbers, RFC 8017 sections 4 and 5 *)

(** [x ^ e mod n] by squaring. *)
Fixpoint pow_mod_pos (x : N) (e : positive) (n : N) : N :=
  match e with
  | xH => x mod n
  | xO e' => let t := pow_mod_pos x e' n in (t * t) mod n
  | xI e' => let t := pow_mod_pos x e' n in (((t * t) mod n) * x) mod n
  end.
Definition pow_mod (x e n : N) : N := match e with N0 => 1 mod n | Npos p => pow_mod_pos x p n end.

(** The length of a number in bytes. *)
Definition byte_length (bits : N) : nat := N.to_nat ((bits + 7) / 8).

(** RSASP1, RSAVP1 on bytes: the tag has as many bytes as the modulus; a number not below the
    modulus is no signature. *)
Definition rsa_apply (n x : N) (em : str) : str := be_bytes (byte_length (N.size n)) (pow_mod (be_value em) x n).
Definition rsa_open (n x : N) (tag : str) : option N :=
  if Nat.eqb (List.length tag) (byte_length (N.size n)) && (be_value tag <? n) then Some (pow_mod (be_value tag) x n) else None.

(** ** Hash functions *)
Record hash_function := HashFunction {
  hf_hash : str -> str;
  hf_len : nat;
  hf_info : str   (* DigestInfo up to the digest, section 9.2 note 1 *)
}.
Definition hf_sha256 : hash_function := HashFunction sha256 32
  (map ascii_of_N [48; 49; 48; 13; 6; 9; 96; 134; 72; 1; 101; 3; 4; 2; 1; 5; 0; 4; 32]).
Definition hf_sha512 : hash_function := HashFunction sha512 64
  (map ascii_of_N [48; 81; 48; 13; 6; 9; 96; 134; 72; 1; 101; 3; 4; 2; 3; 5; 0; 4; 64]).

(** ** EMSA-PKCS1-v1_5, section 9.2 *)
Definition emsa_pkcs1 (h : hash_function) (k : nat) (msg : str) : option str :=
  let t := hf_info h ++ hf_hash h msg in
  if Nat.ltb k (List.length t + 11) then None
  else Some (zero :: ascii_of_N 1 :: repeat (ascii_of_N 255) (k - List.length t - 3) ++ zero :: t).

(** ** EMSA-PSS, section 9.1; the salt is as long as the digest *)

(** MGF1, appendix B.2.1. *)
Definition mgf1 (h : hash_function) (seed : str) (len : nat) : str :=
  firstn len (flat_map (fun c => hf_hash h (seed ++ be_bytes 4 (N.of_nat c))) (seq 0 (Nat.div (len + hf_len h - 1) (hf_len h)))).
Definition xor_bytes (a b : str) : str := map (fun xy => xor_byte (code (fst xy)) (snd xy)) (combine a b).
(** Without the leftmost [z] bits. *)
Definition clear_top (z : N) (s : str) : str :=
  match s with [] => [] | c :: s' => ascii_of_N (code c mod 2 ^ (8 - z)) :: s' end.
(** The hash of eight zero bytes, the digest and the salt. *)
Definition pss_hash (h : hash_function) (msg salt : str) : str := hf_hash h (repeat zero 8 ++ hf_hash h msg ++ salt).

Definition emsa_pss (h : hash_function) (bits : N) (salt msg : str) : option str :=
  let len := byte_length bits in
  if Nat.ltb len (2 * hf_len h + 2) then None
  else
    let hh := pss_hash h msg salt in
    let db := repeat zero (len - 2 * hf_len h - 2) ++ ascii_of_N 1 :: salt in
    let masked := clear_top (8 * N.of_nat len - bits) (xor_bytes db (mgf1 h hh (len - hf_len h - 1))) in
    Some (masked ++ hh ++ [ascii_of_N 188]).

Definition pss_verify (h : hash_function) (bits : N) (msg em : str) : bool :=
  let len := byte_length bits in
  if Nat.ltb len (2 * hf_len h + 2) then false
  else
    let db_len := (len - hf_len h - 1)%nat in
    let z := 8 * N.of_nat len - bits in
    let masked := firstn db_len em in
    let hh := firstn (hf_len h) (skipn db_len em) in
    let db := clear_top z (xor_bytes masked (mgf1 h hh db_len)) in
    let ps_len := (db_len - hf_len h - 1)%nat in
    let salt := skipn (S ps_len) db in
    str_eqb (skipn (hf_len h) (skipn db_len em)) [ascii_of_N 188]
    && str_eqb (clear_top z masked) masked
    && str_eqb (firstn (S ps_len) db) (repeat zero ps_len ++ [ascii_of_N 1])
    && str_eqb (pss_hash h msg salt) hh.

(** ** The schemes, sections 8.1 and 8.2 *)
Definition pkcs1_sign (h : hash_function) (n d : N) (msg : str) : str :=
  match emsa_pkcs1 h (byte_length (N.size n)) msg with
  | Some em => rsa_apply n d em
  | None => []
  end.
Definition pkcs1_verify (h : hash_function) (n e : N) (msg tag : str) : bool :=
  match rsa_open n e tag, emsa_pkcs1 h (byte_length (N.size n)) msg with
  | Some m, Some em => str_eqb (be_bytes (byte_length (N.size n)) m) em
  | _, _ => false
  end.
Definition pss_sign (h : hash_function) (n d rnd : N) (msg : str) : str :=
  match emsa_pss h (N.size n - 1) (be_bytes (hf_len h) rnd) msg with
  | Some em => rsa_apply n d em
  | None => []
  end.
Definition pss_check (h : hash_function) (n e : N) (msg tag : str) : bool :=
  let len := byte_length (N.size n - 1) in
  match rsa_open n e tag with
  | Some m => (m <? 256 ^ N.of_nat len) && pss_verify h (N.size n - 1) msg (be_bytes len m)
  | None => false
  end.

(** ** Public keys: ring's [verify_rsa], RSAPublicKey of appendix A.1.1 *)

(** [der::positive_integer]: not negative, not zero, no needless zero byte. *)
Definition der_positive (s : str) : option N :=
  match s with
  | [] => None
  | c :: s' =>
      if 128 <=? code c then None
      else if code c =? 0 then match s' with c' :: _ => if 128 <=? code c' then Some (be_value s') else None | [] => None end
      else Some (be_value s)
  end.
(** [check_public_modulus_and_exponent]: an odd modulus of 2048 to 8192 bits (in whole
    bytes); an odd exponent from 3 to 2^33 - 1. *)
Definition ring_limits (n e : N) : bool :=
  N.odd n && Nat.leb 256 (byte_length (N.size n)) && (N.size n <=? 8192) && N.odd e && (3 <=? e) && (e <=? 8589934591).
Definition tag_integer : ascii := ascii_of_N 2.
Definition ring_rsa_public (key : str) : option (N * N) :=
  match der_tlv tag_sequence key with
  | Some (body, []) =>
      match der_tlv tag_integer body with
      | Some (nb, rest) =>
          match der_tlv tag_integer rest with
          | Some (eb, []) =>
              match der_positive nb, der_positive eb with
              | Some n, Some e => if ring_limits n e then Some (n, e) else None
              | _, _ => None
              end
          | _ => None
          end
      | None => None
      end
  | _ => None
  end.

(** ** The primitives: how private and public keys give numbers is an argument; so is ECDSA (Ecdsa.v) *)
Definition rsa_hash (s : scheme) : hash_function :=
  match s with PKCS1_SHA256 | PSS_SHA256 => hf_sha256 | _ => hf_sha512 end.
Definition rsa_over (private public : str -> option (N * N)) (ecdsa : crypto) : crypto := Crypto
  (fun s key rnd msg =>
     match s, private key with
     | ECDSA_P256_SHA256, _ => cy_sign ecdsa s key rnd msg
     | _, None => []
     | (PKCS1_SHA256 | PKCS1_SHA512), Some (n, d) => pkcs1_sign (rsa_hash s) n d msg
     | (PSS_SHA256 | PSS_SHA512), Some (n, d) => pss_sign (rsa_hash s) n d rnd msg
     end)
  (fun s key msg tag =>
     match s, public key with
     | ECDSA_P256_SHA256, _ => cy_verify ecdsa s key msg tag
     | _, None => false
     | (PKCS1_SHA256 | PKCS1_SHA512), Some (n, e) => pkcs1_verify (rsa_hash s) n e msg tag
     | (PSS_SHA256 | PSS_SHA512), Some (n, e) => pss_check (rsa_hash s) n e msg tag
     end).
