(** ECDSA: what [ring] 0.16 does behind src/algorithm/ring.rs:136-220,227 with
    [ECDSA_P256_SHA256_ASN1_SIGNING] and [ECDSA_P256_SHA256_ASN1] (the curve P-256, SHA-256, DER).
    A dependency, modelled from FIPS 186-4 and SEC 1.  One instance of the argument called
    [crypto] elsewhere.  Simplified: affine coordinates (ring's are Jacobian, and get the same
    points); a curve is an argument, so that the definitions can be run on a small one. *)
From Verif Require Export Rsa.
Local Open Scope Z_scope.

(** ** Curves y^2 = x^3 + a x + b over the field of [p] elements, with a point of order [n] *)
Record curve := Curve { cv_p : Z; cv_a : Z; cv_b : Z; cv_n : Z; cv_gx : Z; cv_gy : Z }.
Definition point := option (Z * Z).   (* [None]: the point at infinity *)

(** P-256, FIPS 186-4 D.1.2.3. *)
Definition p256 : curve := Curve
  115792089210356248762697446949407573530086143415290314195533631308867097853951
  (-3)
  41058363725152142129326129780047268409114441015993725554835256314039467401291
  115792089210356248762697446949407573529996955224135760342422259061068512044369
  48439561293906451759052585252797914202762949526041747995844080717082404635286
  36134250956749795798585127919587881956611106672985015071877198253568414405109.

(** The inverse modulo a prime, by Fermat's theorem. *)
Definition inverse (m x : Z) : Z := Z.of_N (pow_mod (Z.to_N (x mod m)) (Z.to_N (m - 2)) (Z.to_N m)).

(** The line through two points, or the tangent, meets the curve in the opposite of the sum. *)
Definition third_point (c : curve) (l x1 y1 x2 : Z) : point :=
  let x3 := (l * l - x1 - x2) mod cv_p c in Some (x3, (l * (x1 - x3) - y1) mod cv_p c).
Definition point_add (c : curve) (P Q : point) : point :=
  match P, Q with
  | None, _ => Q
  | _, None => P
  | Some (x1, y1), Some (x2, y2) =>
      if x1 =? x2 then
        if (y1 + y2) mod cv_p c =? 0 then None
        else third_point c ((3 * x1 * x1 + cv_a c) * inverse (cv_p c) (2 * y1)) x1 y1 x2
      else third_point c ((y2 - y1) * inverse (cv_p c) (x2 - x1)) x1 y1 x2
  end.
(** Multiples, by doubling. *)
Fixpoint point_mul_pos (c : curve) (k : positive) (P : point) : point :=
  match k with
  | xH => P
  | xO k' => let T := point_mul_pos c k' P in point_add c T T
  | xI k' => let T := point_mul_pos c k' P in point_add c (point_add c T T) P
  end.
Definition point_mul (c : curve) (k : Z) (P : point) : point :=
  match k with Zpos k' => point_mul_pos c k' P | _ => None end.
Definition generator (c : curve) : point := Some (cv_gx c, cv_gy c).

(** ** Signatures: two numbers below the order *)

(** The message as a number: the whole digest, as the order of P-256 has 256 bits. *)
Definition digest_number (msg : str) : Z := Z.of_N (be_value (sha256 msg)).
Definition scalar_ok (c : curve) (k : Z) : bool := (1 <=? k) && (k <? cv_n c).

(** One attempt with the number [k]. *)
Definition ecdsa_try (c : curve) (d z k : Z) : option (Z * Z) :=
  if scalar_ok c k then
    match point_mul c k (generator c) with
    | Some (x, _) =>
        let r := x mod cv_n c in
        let s := (inverse (cv_n c) k * (z + r * d)) mod cv_n c in
        if (r =? 0) || (s =? 0) then None else Some (r, s)
    | None => None
    end
  else None.
(** Numbers are drawn until one works. *)
Fixpoint ecdsa_sign (c : curve) (d z : Z) (ks : list Z) : option (Z * Z) :=
  match ks with
  | [] => None
  | k :: ks' => match ecdsa_try c d z k with Some rs => Some rs | None => ecdsa_sign c d z ks' end
  end.
Definition ecdsa_check (c : curve) (Q : point) (z r s : Z) : bool :=
  scalar_ok c r && scalar_ok c s &&
  let w := inverse (cv_n c) s in
  match point_add c (point_mul c ((z * w) mod cv_n c) (generator c)) (point_mul c ((r * w) mod cv_n c) Q) with
  | Some (x, _) => x mod cv_n c =? r
  | None => false
  end.

(** ** DER: a SEQUENCE of two INTEGERs *)
Definition integer_bytes (x : N) : str :=
  match be_bytes (byte_length (N.size x)) x with
  | [] => [zero]
  | c :: s => if (128 <=? code c)%N then zero :: c :: s else c :: s
  end.
(** Simplified: lengths below 128 only (the signatures have at most 72 bytes). *)
Definition der_short (tag : ascii) (s : str) : str := tag :: ascii_of_N (N.of_nat (List.length s)) :: s.
Definition signature_bytes (r s : Z) : str :=
  der_short tag_sequence (der_short tag_integer (integer_bytes (Z.to_N r)) ++ der_short tag_integer (integer_bytes (Z.to_N s))).
Definition signature_numbers (tag : str) : option (Z * Z) :=
  match der_tlv tag_sequence tag with
  | Some (body, []) =>
      match der_tlv tag_integer body with
      | Some (rb, rest) =>
          match der_tlv tag_integer rest with
          | Some (sb, []) =>
              match der_positive rb, der_positive sb with
              | Some r, Some s => Some (Z.of_N r, Z.of_N s)
              | _, _ => None
              end
          | _ => None
          end
      | None => None
      end
  | _ => None
  end.

(** ** Public keys: the uncompressed point, SEC 1 section 2.3.4 *)
Definition on_curveb (c : curve) (x y : Z) : bool :=
  (x <? cv_p c) && (y <? cv_p c) && ((y * y) mod cv_p c =? (x * x * x + cv_a c * x + cv_b c) mod cv_p c).
Definition key_point (c : curve) (key : str) : option point :=
  match key with
  | t :: xy =>
      let x := Z.of_N (be_value (firstn 32 xy)) in
      let y := Z.of_N (be_value (skipn 32 xy)) in
      if (code t =? 4)%N && Nat.eqb (List.length xy) 64 && on_curveb c x y then Some (Some (x, y)) else None
  | [] => None
  end.

(** ** The primitive: what number a private key holds, and which numbers are drawn, are arguments *)
Definition ecdsa_over (c : curve) (private : str -> option Z) (nonces : N -> list Z) : crypto := Crypto
  (fun _ key rnd msg =>
     match private key with
     | Some d => match ecdsa_sign c d (digest_number msg) (nonces rnd) with Some (r, s) => signature_bytes r s | None => [] end
     | None => []
     end)
  (fun _ key msg tag =>
     match key_point c key, signature_numbers tag with
     | Some Q, Some (r, s) => ecdsa_check c Q (digest_number msg) r s
     | _, _ => false
     end).
