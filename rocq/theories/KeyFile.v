(** Loading keys: the constructors of src/algorithm/ring.rs and src/algorithm/openssl.rs,
    with the dependencies they use: [pem] 1.x, [spki] 0.7 (modelled from their published
    sources), and the key parsers of ring and openssl (arguments). *)
From Verif Require Export Algorithm Utf8.
Local Open Scope N_scope.

(** ** pem 1.x *)

(** [parser::read_until]: scans for the marker, forgetting a partial match at the first
    byte that does not continue it (that byte is not tried as a new start).  [todo] is the
    part of the marker still to be matched, [part] the bytes matched so far (reversed),
    [seen] the bytes before them (reversed).  Result: rest and bytes before the marker. *)
Fixpoint read_until (marker todo part seen s : str) : option (str * str) :=
  match todo with
  | [] => Some (s, rev seen)
  | m :: todo' =>
      match s with
      | [] => None
      | c :: s' => if Ascii.eqb c m then read_until marker todo' (c :: part) seen s'
                   else read_until marker marker [] (c :: part ++ seen) s'
      end
  end.
Definition find_marker (marker s : str) : option (str * str) := read_until marker marker [] [] s.

(** [parser::skip_whitespace]: space, tab, LF, CR. *)
Definition pem_ws (c : ascii) : bool := (code c =? 32) || (code c =? 9) || (code c =? 10) || (code c =? 13).

(** The markers of [parser::parse_captures]. *)
Definition pem_begin : str := $"-----BEGIN ".
Definition pem_end : str := $"-----END ".
Definition pem_dashes : str := $"-----".

(** [parser::parse_captures]: label, data, closing label. *)
Definition pem_captures (s : str) : option (str * str * str) :=
  match find_marker pem_begin s with
  | None => None
  | Some (s1, _) =>
      match find_marker pem_dashes s1 with
      | None => None
      | Some (s2, label) =>
          match find_marker pem_end (drop_while pem_ws s2) with
          | None => None
          | Some (s3, data) =>
              match find_marker pem_dashes s3 with
              | None => None
              | Some (_, label') => Some (label, data, label')
              end
          end
      end
  end.

(** [str::trim_end] and [str::lines] (the lines without LF or CR LF; trailing white space
    is trimmed anyway, so the CR needs no separate treatment). *)
Definition trim_end (s : str) : str := rev (trim_start_rev (rev s)).

(** [base64::decode_config(_, STANDARD)] of base64 0.13 (the version pem 1.x uses): like
    0.21, but padding may be missing or incomplete. *)
Definition not_pad (c : ascii) : bool := negb (Ascii.eqb c b64_pad).
Definition b64_decode_13 (t : str) : option str :=
  let body := take_while not_pad t in
  let pads := drop_while not_pad t in
  let k := Nat.modulo (List.length body) 4 in
  if forallb (Ascii.eqb b64_pad) pads && (Nat.eqb (List.length pads) 0 || (Nat.leb 2 k && Nat.leb (k + List.length pads) 4)) then
    b64_decode (body ++ repeat b64_pad (match k with 0%nat => 0 | k => 4 - k end)%nat)
  else None.

(** [pem::parse]: tag and contents (the kind of error is not modelled). *)
Definition pem_parse (s : str) : option (str * str) :=
  match pem_captures s with
  | None => None
  | Some (label, data, label') =>
      if utf8_valid label && utf8_valid label' && utf8_valid data && str_eqb label label'
         && negb (Nat.eqb (List.length label) 0) then
        match b64_decode_13 (List.concat (map trim_end (split ch_lf data))) with
        | Some contents => Some (label, contents)
        | None => None
        end
      else None
  end.

(** ** der 0.7, spki 0.7 *)

(** Big-endian number. *)
Definition be_value (s : str) : N := fold_left (fun a c => 256 * a + code c) s 0.

(** [Length::decode]: short form, or 1 to 4 bytes, minimal, at most 0xfffffff. *)
Definition der_length (s : str) : option (N * str) :=
  match s with
  | [] => None
  | b :: r =>
      if code b <? 128 then Some (code b, r)
      else
        let k := N.to_nat (code b - 128) in
        let v := be_value (firstn k r) in
        if (Nat.leb 1 k && Nat.leb k 4 && Nat.leb k (List.length r))
           && (128 <=? v) && (256 ^ (N.of_nat k - 1) <=? v) && (v <=? 268435455)
        then Some (v, skipn k r) else None
  end.

(** A header with the given tag and its contents; the rest. *)
Definition der_tlv (tag : ascii) (s : str) : option (str * str) :=
  match s with
  | [] => None
  | t :: r =>
      if Ascii.eqb t tag then
        match der_length r with
        | Some (n, r') => if (n <=? N.of_nat (List.length r'))
                          then Some (firstn (N.to_nat n) r', skipn (N.to_nat n) r') else None
        | None => None
        end
      else None
  end.

(** [AnyRef::decode].  Simplified: any tag byte that is not the escape to long tag numbers
    is accepted (the crate also rejects universal tags it does not know). *)
Definition der_any (s : str) : option (str * str) :=
  match s with
  | t :: _ => if code t mod 32 =? 31 then None else der_tlv t s
  | [] => None
  end.

(** The tags SEQUENCE, OBJECT IDENTIFIER and BIT STRING. *)
Definition tag_sequence : ascii := ascii_of_N 48.
Definition tag_oid : ascii := ascii_of_N 6.
Definition tag_bits : ascii := ascii_of_N 3.

(** [ObjectIdentifier::from_bytes].  Simplified: 1 to 39 bytes, the last one ending an arc
    (the crate also limits the size of each arc). *)
Definition oid_ok (s : str) : bool :=
  match rev s with
  | [] => false
  | c :: _ => (code c <? 128) && Nat.leb (List.length s) 39
  end.

(** [AlgorithmIdentifierRef::decode]: an object identifier, optional parameters. *)
Definition algorithm_ok (s : str) : bool :=
  match der_tlv tag_oid s with
  | Some (oid, []) => oid_ok oid
  | Some (oid, r) => oid_ok oid && match der_any r with Some (_, []) => true | _ => false end
  | None => false
  end.

(** [BitStringRef::decode] and [raw_bytes]. *)
Definition bit_string (s : str) : option str :=
  match s with
  | [] => None
  | u :: r => if (7 <? code u) || (negb (code u =? 0) && Nat.eqb (List.length r) 0) then None else Some r
  end.

(** src/algorithm/ring.rs:131-134 [spki_to_unparsed_public_key]. *)
Definition spki_key (s : str) : option str :=
  match der_tlv tag_sequence s with
  | Some (body, []) =>
      match der_tlv tag_sequence body with
      | Some (alg, rest) =>
          if algorithm_ok alg then
            match der_tlv tag_bits rest with
            | Some (bits, []) => bit_string bits
            | _ => None
            end
          else None
      | None => None
      end
  | _ => None
  end.

(** ** The constructors of ring.rs *)

(** [RsaKeyPair::from_pkcs8], [RsaKeyPair::from_der], [EcdsaKeyPair::from_pkcs8]: the key
    material, or an error. *)
Record ring_keys := RingKeys {
  rk_rsa_pkcs8 : str -> option str;
  rk_rsa_der : str -> option str;
  rk_ecdsa_pkcs8 : str -> option str
}.
(** The parser of PKCS#8 keys a type uses (lines 26, 35, 154, 166). *)
Definition rk_pkcs8 (rk : ring_keys) (t : key_type) : str -> option str :=
  match t with EcdsaP256Sha256 => rk_ecdsa_pkcs8 rk | _ => rk_rsa_pkcs8 rk end.

(** [pem::parse(bytes)?] and [.contents]. *)
Definition pem_contents (s : str) : option str := option_map snd (pem_parse s).
Definition andThen {A B} (o : option A) (f : A -> option B) : option B := match o with Some a => f a | None => None end.

(** Lines 25-27, 153-158 [new_pkcs8]. *)
Definition sign_new_pkcs8 (cy : crypto) (rk : ring_keys) (t : key_type) (b : str) : option http_signer :=
  option_map (ring_signer cy t) (rk_pkcs8 rk t b).
(** Lines 33-36, 164-170 [new_pkcs8_pem]. *)
Definition sign_new_pkcs8_pem (cy : crypto) (rk : ring_keys) (t : key_type) (b : str) : option http_signer :=
  option_map (ring_signer cy t) (andThen (pem_contents b) (rk_pkcs8 rk t)).
(** Lines 39-41 [new_pkcs1] (the RSA types only). *)
Definition sign_new_pkcs1 (cy : crypto) (rk : ring_keys) (t : key_type) (b : str) : option http_signer :=
  option_map (ring_signer cy t) (rk_rsa_der rk b).
(** Lines 46-49 [new_pkcs1_pem] (the RSA types only). *)
Definition sign_new_pkcs1_pem (cy : crypto) (rk : ring_keys) (t : key_type) (b : str) : option http_signer :=
  option_map (ring_signer cy t) (andThen (pem_contents b) (rk_rsa_der rk)).
(** Lines 55-57 [new_pkcs1_der] (the RSA types only): nothing is checked. *)
Definition verify_new_pkcs1_der (cy : crypto) (t : key_type) (b : str) : option http_verifier := Some (ring_verifier cy t b).
(** Lines 63-66 [new_pkcs1_pem] (the RSA types only): the contents are not looked at. *)
Definition verify_new_pkcs1_pem (cy : crypto) (t : key_type) (b : str) : option http_verifier :=
  option_map (ring_verifier cy t) (pem_contents b).
(** Lines 70-73, 176-179 [new_spki_der]. *)
Definition verify_new_spki_der (cy : crypto) (t : key_type) (b : str) : option http_verifier :=
  option_map (ring_verifier cy t) (spki_key b).
(** Lines 77-81, 182-186 [new_spki_pem]. *)
Definition verify_new_spki_pem (cy : crypto) (t : key_type) (b : str) : option http_verifier :=
  option_map (ring_verifier cy t) (andThen (pem_contents b) spki_key).

(** ** The constructors of openssl.rs *)

(** [PKey::private_key_from_pkcs8], [Rsa::private_key_from_der], [_from_pem],
    [Rsa::public_key_from_der], [_from_pem]: the key material, or an error. *)
Record openssl_keys := OpensslKeys {
  ok_pkcs8 : str -> option str;
  ok_private_der : str -> option str;
  ok_private_pem : str -> option str;
  ok_public_der : str -> option str;
  ok_public_pem : str -> option str
}.
(** Lines 39-41 [new_pkcs8], 45-47 [new_pkcs8_pem] (the same call, on the file as it is),
    51-55 [new_pkcs1_der], 58-62 [new_pkcs1_pem]. *)
Definition openssl_new_pkcs8 (cy : crypto) (ok : openssl_keys) (t : key_type) (b : str) : option http_signer :=
  andThen (ok_pkcs8 ok b) (openssl_signer cy t).
Definition openssl_new_pkcs8_pem (cy : crypto) (ok : openssl_keys) (t : key_type) (b : str) : option http_signer :=
  andThen (ok_pkcs8 ok b) (openssl_signer cy t).
Definition openssl_new_pkcs1_der (cy : crypto) (ok : openssl_keys) (t : key_type) (b : str) : option http_signer :=
  andThen (ok_private_der ok b) (openssl_signer cy t).
Definition openssl_new_pkcs1_pem (cy : crypto) (ok : openssl_keys) (t : key_type) (b : str) : option http_signer :=
  andThen (ok_private_pem ok b) (openssl_signer cy t).
(** Lines 68-70 [new_der], 73-75 [new_pem]. *)
Definition openssl_new_der (cy : crypto) (ok : openssl_keys) (t : key_type) (b : str) : option http_verifier :=
  andThen (ok_public_der ok b) (openssl_verifier cy t).
Definition openssl_new_pem (cy : crypto) (ok : openssl_keys) (t : key_type) (b : str) : option http_verifier :=
  andThen (ok_public_pem ok b) (openssl_verifier cy t).
