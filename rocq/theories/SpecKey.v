(** Key files.  Nothing here models code. *)
From Verif Require Export Spec SpecAlg KeyFile.
Local Open Scope N_scope.

(** ** PEM *)
Definition ch_cr : ascii := ascii_of_N 13.
(** [s] is [t] broken into lines. *)
Inductive wrapped : str -> str -> Prop :=
| wrap_nil : wrapped [] []
| wrap_byte c t s : wrapped t s -> wrapped (c :: t) (c :: s)
| wrap_lf t s : wrapped t s -> wrapped t (ch_lf :: s)
| wrap_crlf t s : wrapped t s -> wrapped t (ch_cr :: ch_lf :: s).
(** A PEM file: text without dashes, a labelled block with the base64 text of the contents
    in lines, any text. *)
Definition dashless (s : str) : Prop := ~ In "-"%char s.
Definition pem_file (text label contents : str) : Prop :=
  exists pre data post,
    text = pre ++ $"-----BEGIN " ++ label ++ $"-----" ++ data ++ $"-----END " ++ label ++ $"-----" ++ post
    /\ dashless pre /\ dashless label /\ label <> [] /\ Forall (fun c => code c < 128) label
    /\ wrapped (b64_bits contents) data.

(** ** DER *)
(** Numbers in big-endian bytes. *)
Fixpoint big_endian (s : str) : N :=
  match s with [] => 0 | c :: s' => code c * 256 ^ N.of_nat (List.length s') + big_endian s' end.
(** Lengths: one byte below 128, or the number of bytes (with the high bit set) and the
    bytes, the first not zero. *)
Inductive length_bytes (n : N) : str -> Prop :=
| length_short : n < 128 -> length_bytes n [ascii_of_N n]
| length_long b s : 128 <= n < 2 ^ 28 -> (List.length (b :: s) <= 4)%nat -> code b <> 0 -> big_endian (b :: s) = n ->
    length_bytes n (ascii_of_N (128 + N.of_nat (List.length (b :: s))) :: b :: s).
(** A tagged value. *)
Definition tagged (tag : N) (contents s : str) : Prop :=
  exists l, length_bytes (N.of_nat (List.length contents)) l /\ s = ascii_of_N tag :: l ++ contents.

(** SubjectPublicKeyInfo: the bytes of the key. *)
Definition oid_bytes (s : str) : Prop := (List.length s <= 39)%nat /\ exists s' c, s = s' ++ [c] /\ code c < 128.
Definition spki (oid key s : str) : Prop :=
  exists unused alg_id params bits algorithm subject,
    tagged 6 oid alg_id /\ oid_bytes oid
    /\ (params = [] \/ exists tag v, tag < 256 /\ tag mod 32 <> 31 /\ tagged tag v params)
    /\ tagged 48 (alg_id ++ params) algorithm
    /\ bits = ascii_of_N unused :: key /\ unused < 8 /\ (key = [] -> unused = 0)
    /\ tagged 3 bits subject
    /\ tagged 48 (algorithm ++ subject) s.
(** RSAPublicKey (PKCS#1): modulus and exponent. *)
Definition rsa_public_key (s : str) : Prop :=
  exists n e modulus exponent, tagged 2 n modulus /\ tagged 2 e exponent /\ tagged 48 (modulus ++ exponent) s.

(** The object identifiers of RSA and of elliptic-curve keys. *)
Definition oid_rsa : str := map ascii_of_N [42; 134; 72; 134; 247; 13; 1; 1; 1].
Definition oid_ec : str := map ascii_of_N [42; 134; 72; 206; 61; 2; 1].

(** What the RSA primitives do with other bytes than a PKCS#1 key: they accept nothing. *)
Definition rsa_scheme (s : scheme) : Prop := s <> ECDSA_P256_SHA256.
Definition wants_pkcs1 (cy : crypto) : Prop :=
  forall s key msg tag, rsa_scheme s -> cy_verify cy s key msg tag = true -> rsa_public_key key.
(** PKCS#8 parsers want DER: a sequence. *)
Definition wants_der (p : str -> option str) : Prop := forall b k, p b = Some k -> exists b', b = ascii_of_N 48 :: b'.

(** The scheme of a type: what its name promises, but for the type RsaPssSha256 (C51). *)
Definition scheme_of (t : key_type) : scheme := match t with RsaPssSha256 => PSS_SHA512 | t => promised t end.
(** A constructor of type [t] gave a verifier (a signer) with this key. *)
Definition verifier_for (cy : crypto) (t : key_type) (key : str) (o : option http_verifier) : Prop :=
  exists vf, o = Some vf /\ denotes (vf_name vf) (scheme_of t) /\ verifies_by cy (scheme_of t) key vf.
Definition signer_for (cy : crypto) (t : key_type) (key : str) (o : option http_signer) : Prop :=
  exists sg, o = Some sg /\ denotes (sg_name sg) (scheme_of t) /\ signs_with cy (scheme_of t) key sg.
