(** ECDSA (FIPS 186-4 section 6, SEC 1), in terms of the chord-and-tangent law.  Nothing here models code. *)
From Coq Require Export Znumtheory.
From Verif Require Export SpecRsa Ecdsa.
Local Open Scope Z_scope.

(** ** The curve *)
Definition on_curve (c : curve) (P : point) : Prop :=
  match P with
  | None => True
  | Some (x, y) => 0 <= x < cv_p c /\ 0 <= y < cv_p c /\ (cv_p c | y * y - (x * x * x + cv_a c * x + cv_b c))
  end.
(** Congruence. *)
Definition same (m x y : Z) : Prop := (m | x - y).
(** The line of slope [l] through [x1, y1], which meets the curve at the abscissa [x2] too, meets it for the
    third time in the opposite of [x3, y3]. *)
Definition on_line (c : curve) (l x1 y1 x2 x3 y3 : Z) : Prop :=
  0 <= x3 < cv_p c /\ 0 <= y3 < cv_p c
  /\ same (cv_p c) (x1 + x2 + x3) (l * l) /\ same (cv_p c) (- y3) (y1 + l * (x3 - x1)).
(** The sum of two points: by the line through both, or the tangent. *)
Inductive sum_of (c : curve) : point -> point -> point -> Prop :=
| sum_left P : sum_of c None P P
| sum_right P : sum_of c P None P
| sum_opposite x y y' : same (cv_p c) (y + y') 0 -> sum_of c (Some (x, y)) (Some (x, y')) None
| sum_chord x1 y1 x2 y2 l x3 y3 : x1 <> x2 -> same (cv_p c) (l * (x2 - x1)) (y2 - y1) ->
    on_line c l x1 y1 x2 x3 y3 -> sum_of c (Some (x1, y1)) (Some (x2, y2)) (Some (x3, y3))
| sum_tangent x y l x3 y3 : ~ same (cv_p c) (y + y) 0 -> same (cv_p c) (l * (2 * y)) (3 * x * x + cv_a c) ->
    on_line c l x y x x3 y3 -> sum_of c (Some (x, y)) (Some (x, y)) (Some (x3, y3)).
(** [k] times a point. *)
Inductive multiple (c : curve) (P : point) : nat -> point -> Prop :=
| mult_0 : multiple c P 0 None
| mult_S k R R' : multiple c P k R -> sum_of c R P R' -> multiple c P (S k) R'.

(** The parameters of a curve (SEC 1 section 3.1.1): two primes, a curve without singular point, a generator on it,
    whose order is the second prime.  That the points are a group is not assumed: EcdsaLaw.v proves it. *)
Definition good_curve (c : curve) : Prop :=
  prime (cv_p c) /\ 3 < cv_p c < 2 ^ 256 /\ prime (cv_n c) /\ 2 < cv_n c < 2 ^ 256
  /\ ~ same (cv_p c) (4 * cv_a c * cv_a c * cv_a c + 27 * cv_b c * cv_b c) 0
  /\ on_curve c (Some (cv_gx c, cv_gy c))
  /\ multiple c (Some (cv_gx c, cv_gy c)) (Z.to_nat (cv_n c)) None.

(** ** Signatures *)
(** The message as a number. *)
Definition hash_number (msg : str) : Z := Z.of_N (big_endian (sha256 msg)).
(** [r, s] is a signature of [z] under the public key [Q]: for [u s = z] and [v s = r], the point
    [u G + v Q] has the abscissa [r], all modulo the order. *)
Definition valid_pair (c : curve) (Q : point) (z r s : Z) : Prop :=
  0 < r < cv_n c /\ 0 < s < cv_n c
  /\ exists u v U V x y, Z.of_nat u < cv_n c /\ Z.of_nat v < cv_n c /\ same (cv_n c) (Z.of_nat u * s) z /\ same (cv_n c) (Z.of_nat v * s) r
       /\ multiple c (Some (cv_gx c, cv_gy c)) u U /\ multiple c Q v V
       /\ sum_of c U V (Some (x, y)) /\ same (cv_n c) x r.
(** A pair of numbers in DER. *)
Definition pair_in_der (r s : Z) (tag : str) : Prop :=
  0 < r /\ 0 < s /\ exists rb sb x y, der_integer rb (Z.to_N r) /\ der_integer sb (Z.to_N s)
    /\ tagged 2 rb x /\ tagged 2 sb y /\ tagged 48 (x ++ y) tag.
(** The form the draft asks for (section 3.3.4): 32 bytes each. *)
Definition pair_in_draft (r s : Z) (tag : str) : Prop :=
  exists rb sb, List.length rb = 32%nat /\ List.length sb = 32%nat
    /\ Z.of_N (big_endian rb) = r /\ Z.of_N (big_endian sb) = s /\ tag = rb ++ sb.

(** ** Keys *)
(** An uncompressed point: 4, and the coordinates in 32 bytes each. *)
Definition public_point (c : curve) (key : str) (Q : point) : Prop :=
  exists xb yb x y, key = byte 4 :: xb ++ yb /\ List.length xb = 32%nat /\ List.length yb = 32%nat
    /\ Z.of_N (big_endian xb) = x /\ Z.of_N (big_endian yb) = y /\ Q = Some (x, y) /\ on_curve c Q.
(** A private number and the key of its multiple of the generator. *)
Definition ec_keys (c : curve) (private : str -> option Z) (sk pk : str) (d : Z) (Q : point) : Prop :=
  private sk = Some d /\ 0 < d < cv_n c /\ public_point c pk Q /\ multiple c (Some (cv_gx c, cv_gy c)) (Z.to_nat d) Q.
(** What the number [k] makes of a message. *)
Definition made_with (c : curve) (d z k r s : Z) : Prop :=
  0 < k < cv_n c /\ 0 < r < cv_n c /\ 0 < s < cv_n c
  /\ (exists x y, multiple c (Some (cv_gx c, cv_gy c)) (Z.to_nat k) (Some (x, y)) /\ same (cv_n c) x r)
  /\ same (cv_n c) (k * s) (z + r * d).
(** The first number of a list that works. *)
Definition first_made (c : curve) (d z : Z) (ks : list Z) (r s : Z) : Prop :=
  exists before k after, ks = before ++ k :: after /\ made_with c d z k r s
    /\ forall k' r' s', In k' before -> ~ made_with c d z k' r' s'.
(** Each list of numbers drawn has one that works, whatever is signed. *)
Definition enough_draws (c : curve) (d : Z) (nonces : N -> list Z) : Prop :=
  forall rnd msg, exists k r s, In k (nonces rnd) /\ made_with c d (hash_number msg) k r s.
