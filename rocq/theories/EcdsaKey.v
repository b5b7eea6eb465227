(** ECDSA private keys: what [EcdsaKeyPair::from_pkcs8] of [ring] 0.16 reads, as called in
    src/algorithm/ring.rs:153-158 and :164-170 with [ECDSA_P256_SHA256_ASN1_SIGNING].
    A dependency, modelled from its published sources ([io::der], [pkcs8::unwrap_key],
    [ec::suite_b::key_pair_from_pkcs8], [key_pair_from_bytes]).  The kind of error is not modelled. *)
From Verif Require Export Ecdsa.
Local Open Scope N_scope.

(** The tags OCTET STRING, [0] and [1] (constructed). *)
Definition tag_octets : ascii := ascii_of_N 4.
Definition tag_context0 : ascii := ascii_of_N 160.
Definition tag_context1 : ascii := ascii_of_N 161.

(** [der::expect_tag_and_get_value]: lengths of at most two bytes. *)
Definition ring_tlv (tag : ascii) (s : str) : option (str * str) :=
  match der_tlv tag s with
  | Some (v, r) => if N.of_nat (List.length v) <? 65536 then Some (v, r) else None
  | None => None
  end.
(** [der::nested] and [Input::read_all]: nothing may follow. *)
Definition ring_only (tag : ascii) (s : str) : option str :=
  match ring_tlv tag s with Some (v, []) => Some v | _ => None end.
(** [der::small_nonnegative_integer], compared with the version (0 or 1) expected. *)
Definition ring_version (v : N) (s : str) : option str :=
  match ring_tlv tag_integer s with
  | Some (x, r) => if str_eqb x [ascii_of_N v] then Some r else None
  | None => None
  end.
(** [input.peek] of a tag. *)
Definition next_is (tag : ascii) (s : str) : bool := match s with t :: _ => Ascii.eqb t tag | [] => false end.

(** The template of P-256: id-ecPublicKey and prime256v1. *)
Definition p256_curve_id : str := map ascii_of_N [6; 8; 42; 134; 72; 206; 61; 3; 1; 7].
Definition p256_algorithm : str := map ascii_of_N [6; 7; 42; 134; 72; 206; 61; 2; 1] ++ p256_curve_id.

(** [pkcs8::unwrap_key] with [Version::V1Only]: the private key; attributes are skipped. *)
Definition unwrap_key (algorithm s : str) : option str :=
  andThen (ring_only tag_sequence s) (fun body =>
  andThen (ring_version 0 body) (fun s1 =>
  match ring_tlv tag_sequence s1 with
  | Some (alg, s2) =>
      if str_eqb alg algorithm then
        match ring_tlv tag_octets s2 with
        | Some (key, s3) =>
            if next_is tag_context0 s3 then match ring_tlv tag_context0 s3 with Some (_, []) => Some key | _ => None end
            else match s3 with [] => Some key | _ => None end
        | None => None
        end
      else None
  | None => None
  end)).

(** [der::bit_string_with_no_unused_bits], alone in its input. *)
Definition whole_bits (s : str) : option str :=
  match ring_only tag_bits s with Some (u :: key) => if code u =? 0 then Some key else None | _ => None end.

(** The optional parameters of a key, which must be the curve; what follows. *)
Definition skip_curve (s : str) : option str :=
  if next_is tag_context0 s then
    match ring_tlv tag_context0 s with
    | Some (id, r) => if str_eqb id p256_curve_id then Some r else None
    | None => None
    end
  else Some s.
(** [key_pair_from_pkcs8_]: private and public key.  The parameters are optional, the public key is not. *)
Definition ec_key_fields (s : str) : option (str * str) :=
  andThen (ring_only tag_sequence s) (fun body =>
  andThen (ring_version 1 body) (fun s1 =>
  match ring_tlv tag_octets s1 with
  | Some (key, s2) =>
      andThen (skip_curve s2) (fun s3 =>
      andThen (ring_only tag_context1 s3) (fun bits =>
      andThen (whole_bits bits) (fun public => Some (key, public))))
  | None => None
  end)).

(** The bytes of a point: [ec::suite_b::private_key::public_from_private]. *)
Definition point_bytes (P : point) : option str :=
  match P with
  | Some (x, y) => Some (ascii_of_N 4 :: be_bytes 32 (Z.to_N x) ++ be_bytes 32 (Z.to_N y))
  | None => None
  end.
(** [key_pair_from_bytes]: 32 bytes with a number from 1 to n - 1, and the public key that belongs to it. *)
Definition ec_key_ok (c : curve) (key public : str) : bool :=
  let d := Z.of_N (be_value key) in
  Nat.eqb (List.length key) 32 && scalar_ok c d
  && match point_bytes (point_mul c d (generator c)) with Some pk => str_eqb public pk | None => false end.

(** [EcdsaKeyPair::from_pkcs8]: the 32 bytes of the number. *)
Definition ring_ec_pkcs8 (c : curve) (b : str) : option str :=
  andThen (unwrap_key p256_algorithm b) (fun inner =>
  andThen (ec_key_fields inner) (fun kp => if ec_key_ok c (fst kp) (snd kp) then Some (fst kp) else None)).
(** The number a private key holds. *)
Definition ring_ec_number (key : str) : option Z := Some (Z.of_N (be_value key)).
(** The parsers of [ring], with those of RSA keys as arguments. *)
Definition ring_keys_over (c : curve) (rsa_pkcs8 rsa_der : str -> option str) : ring_keys :=
  RingKeys rsa_pkcs8 rsa_der (ring_ec_pkcs8 c).
