(** The points of a curve without singular points are a group.

    The sum of two points, chord or tangent, is described by a slope that satisfies two equations
    at once; associativity is then a short computation. *)
From Coq Require Import Ring Eqdep_dec.
From Verif Require Export EcdsaGroup.
From Verif Require Import StrFacts.
Local Open Scope Z_scope.

(** ** In a ring without zero divisors *)
Section Ring.
  Context {F : Type} (zero one : F) (add mul sub : F -> F -> F) (opp : F -> F).
  Context (Rth : ring_theory zero one add mul sub opp eq).
  Context (Dom : forall a b, mul a b = zero -> a = zero \/ b = zero).
  Add Ring FR : Rth.
  Local Infix "+" := add. Local Infix "*" := mul. Local Infix "-" := sub. Local Notation "- x" := (opp x). Local Notation "0" := zero.
  Lemma sub_zero (a b : F) : a - b = 0 -> a = b.
  Proof. intro H. replace a with (a - b + b) by ring. rewrite H. ring. Qed.
  Lemma zero_sub (a b : F) : a = b -> a - b = 0.
  Proof. intros ->. ring. Qed.
  Lemma cancel (k a b : F) : k <> 0 -> k * a = k * b -> a = b.
  Proof.
    intros K H. apply sub_zero. destruct (Dom k (a - b)) as [E|E]; [|contradiction|exact E].
    replace (k * (a - b)) with (k * a - k * b) by ring. now apply zero_sub.
  Qed.
  (** Points [0, y], [u, y + l u], [v, y + m v]; the sum of the first two has the abscissa
      [X]; [k] is the slope for that sum and the third. *)
  Lemma slopes (y l m u v s a k X : F) : X = l * l + s - u ->
    l * (y + y + l * u) = u * u - s * u + a -> m * (y + y + m * v) = v * v - s * v + a ->
    y + y + m * v + l * X = k * (v - X) ->
    k * (m * v - l * X) = X * X + X * v + v * v - s * (X + v) + a ->
    (v = X -> m * v - l * X <> 0) ->
    (m - l) * (k + l) = v - u.
  Proof.
    intros EX HL HM HK HK' N.
    assert (E1 : (v - X) * ((m - l) * (k + l)) = (v - X) * (v - u)).
    { replace ((v - X) * ((m - l) * (k + l))) with ((m - l) * (k * (v - X) + l * (v - X))) by ring. rewrite <- HK.
      replace ((m - l) * (y + y + m * v + l * X + l * (v - X))) with ((m * (y + y + m * v)) - (l * (y + y + l * u)) + l * l * u - l * l * v) by ring.
      rewrite HL, HM. subst X. ring. }
    assert (Alt : v - X = 0 \/ (m - l) * (k + l) = v - u).
    { destruct (Dom (v - X) ((m - l) * (k + l) - (v - u))) as [E|E].
      - replace ((v - X) * ((m - l) * (k + l) - (v - u))) with ((v - X) * ((m - l) * (k + l)) - (v - X) * (v - u)) by ring. now apply zero_sub.
      - now left.
      - right. now apply sub_zero. }
    destruct Alt as [E|E]; [|exact E]. apply sub_zero in E. specialize (N E). subst v.
    assert (HK0 : y + y + (m + l) * X = 0) by (transitivity (y + y + m * X + l * X); [ring|]; rewrite HK; ring).
    assert (Xn : X <> 0) by (intro Z; apply N; rewrite Z; ring).
    apply (cancel X); [exact Xn|].
    assert (Ea : a = l * (y + y + l * u) - u * u + s * u) by (rewrite HL; ring).
    assert (Ey : y + y = - ((m + l) * X)) by (apply sub_zero; rewrite <- HK0; ring).
    assert (Es : s = X + u - l * l) by (rewrite EX; ring).
    transitivity (k * (m * X - l * X) + l * (m - l) * X); [ring|]. rewrite HK', Ea, Ey, Es. ring.
  Qed.
  Lemma core (y l m u v s a k j X W : F) : X = l * l + s - u -> W = m * m + s - v ->
    l * (y + y + l * u) = u * u - s * u + a -> m * (y + y + m * v) = v * v - s * v + a ->
    y + y + m * v + l * X = k * (v - X) -> k * (m * v - l * X) = X * X + X * v + v * v - s * (X + v) + a -> (v = X -> m * v - l * X <> 0) ->
    y + y + l * u + m * W = j * (u - W) -> j * (l * u - m * W) = W * W + W * u + u * u - s * (W + u) + a -> (u = W -> l * u - m * W <> 0) ->
    (l = m /\ u = v)
    \/ (k * k + s - X - v = j * j + s - W - u
        /\ - (y + l * X) + k * (k * k + s - X - v - X) = y + l * u + j * (k * k + s - X - v - u)).
  Proof.
    intros EX EW HL HM HK HK' N HJ HJ' N'.
    pose proof (slopes y l m u v s a k X EX HL HM HK HK' N) as K1. pose proof (slopes y m l v u s a j W EW HM HL HJ HJ' N') as K2.
    destruct (Dom (m - l) (k + l - (j + m))) as [E|E].
    { transitivity ((m - l) * (k + l) + (l - m) * (j + m)); [ring|]. rewrite K1, K2. ring. }
    - left. split; [symmetry; now apply sub_zero|]. symmetry. apply sub_zero. rewrite <- K1, E. ring.
    - right. assert (Ej : j = k + l - m) by (apply sub_zero; transitivity (- (k + l - (j + m))); [ring|]; rewrite E; ring).
      assert (Ev : v = u + (m - l) * (k + l)) by (rewrite K1; ring). split.
      + subst j. rewrite EX, EW. rewrite Ev. ring.
      + apply sub_zero. transitivity (- (y + y + m * v + l * X - k * (v - X))); [|rewrite HK; ring]. subst j. rewrite EX, Ev. ring.
  Qed.
End Ring.

(** ** The numbers modulo a prime *)
Section Zp.
  Context (p : Z) (Hp : prime p).
  Definition zp : Type := { x : Z | x mod p = x }.
  Let P2 : 2 <= p := prime_ge_2 p Hp.
  Definition zin (x : Z) : zp := exist _ (x mod p) (Zmod_mod x p).
  Definition zout (a : zp) : Z := proj1_sig a.
  Lemma zp_eq (a b : zp) : zout a = zout b -> a = b.
  Proof. destruct a as [x X], b as [y Y]. cbn. intros ->. f_equal. apply UIP_dec. exact Z.eq_dec. Qed.
  Lemma zin_iff (x y : Z) : zin x = zin y <-> same p x y.
  Proof.
    rewrite same_iff by lia. split.
    - intro H. apply (f_equal zout) in H. exact H.
    - intro H. now apply zp_eq.
  Qed.
  Lemma zin_out (a : zp) : zin (zout a) = a.
  Proof. apply zp_eq. destruct a as [x X]. exact X. Qed.
  Definition zadd (a b : zp) : zp := zin (zout a + zout b).
  Definition zmulp (a b : zp) : zp := zin (zout a * zout b).
  Definition zsub (a b : zp) : zp := zin (zout a - zout b).
  Definition zopp (a : zp) : zp := zin (- zout a).
  Lemma out_in (x : Z) : same p (zout (zin x)) x.
  Proof. apply same_mod. lia. Qed.
  Lemma zin_add (x y : Z) : zin (x + y) = zadd (zin x) (zin y).
  Proof. apply zin_iff. apply same_sym, same_add; apply out_in. Qed.
  Lemma zin_mul (x y : Z) : zin (x * y) = zmulp (zin x) (zin y).
  Proof. apply zin_iff. apply same_sym, same_mul; apply out_in. Qed.
  Lemma zin_opp (x : Z) : zin (- x) = zopp (zin x).
  Proof. apply zin_iff. apply same_sym, same_opp, out_in. Qed.
  Lemma zin_sub (x y : Z) : zin (x - y) = zsub (zin x) (zin y).
  Proof. apply zin_iff. apply same_sym. unfold Z.sub at 1 2. apply same_add; [apply out_in|apply same_opp, out_in]. Qed.
  Lemma zp_ring : ring_theory (zin 0) (zin 1) zadd zmulp zsub zopp eq.
  Proof.
    split; intros; repeat match goal with a : zp |- _ => rewrite <- (zin_out a); generalize (zout a); clear a; intro end;
      rewrite <- ?zin_add, <- ?zin_mul, <- ?zin_opp, <- ?zin_sub, <- ?zin_add, <- ?zin_mul, <- ?zin_add; f_equal; ring.
  Qed.
  Lemma zp_domain (a b : zp) : zmulp a b = zin 0 -> a = zin 0 \/ b = zin 0.
  Proof.
    rewrite <- (zin_out a), <- (zin_out b), <- zin_mul, !zin_iff, !same_zero. now apply prime_split.
  Qed.
End Zp.

(** ** Sums by slopes *)
Section Slopes.
  Context (c : curve) (Hp : prime (cv_p c)) (H3 : 3 < cv_p c).
  Local Notation p := (cv_p c).
  Add Ring ZpR : (zp_ring p Hp).
  Local Notation "0" := (zin p 0%Z). Local Notation "1" := (zin p 1%Z).
  Local Infix "+" := (zadd p). Local Infix "*" := (zmulp p). Local Infix "-" := (zsub p). Local Notation "- x" := (zopp p x).
  Local Notation "# x" := (zin p x) (at level 1, format "# x").
  Local Notation Dom := (zp_domain p Hp).
  Local Notation sub0 := (sub_zero _ _ _ _ _ _ (zp_ring p Hp)).
  Local Notation canc := (cancel _ _ _ _ _ _ (zp_ring p Hp) Dom).
  Definition psum (x1 y1 x2 y2 x3 y3 : zp p) : Prop := exists l,
    y2 - y1 = l * (x2 - x1) /\ l * (y1 + y2) = x1 * x1 + x1 * x2 + x2 * x2 + #(cv_a c)
    /\ x3 = l * l - x1 - x2 /\ y3 = - (y1 + l * (x3 - x1)) /\ ~ (x1 = x2 /\ y1 + y2 = 0).
  Definition pcurve (x y : zp p) : Prop := y * y = x * x * x + #(cv_a c) * x + #(cv_b c).
  Lemma curve_in (x y : Z) : on_curve c (Some (x, y)) -> pcurve #x #y.
  Proof.
    intros (_ & _ & H). unfold pcurve. rewrite <- !zin_mul, <- !zin_add by exact Hp. apply zin_iff; [exact Hp|]. exact H.
  Qed.
  Lemma in_curve (x y : Z) : (0 <= x < p)%Z -> (0 <= y < p)%Z -> pcurve #x #y -> on_curve c (Some (x, y)).
  Proof.
    intros X Y H. split; [exact X|]. split; [exact Y|]. unfold pcurve in H. rewrite <- !zin_mul, <- !zin_add in H by exact Hp. apply zin_iff in H; [|exact Hp]. exact H.
  Qed.
  Lemma zin_inj (x y : Z) : (0 <= x < p)%Z -> (0 <= y < p)%Z -> #x = #y -> x = y.
  Proof. intros X Y H. apply zin_iff in H; [|exact Hp]. now apply (same_small p). Qed.
  Lemma zin_zero (x : Z) : #x = 0 <-> same p x 0%Z.
  Proof. apply zin_iff, Hp. Qed.
  Lemma sum_psum (x1 y1 x2 y2 x3 y3 : Z) : on_curve c (Some (x1, y1)) -> on_curve c (Some (x2, y2)) ->
    sum_of c (Some (x1, y1)) (Some (x2, y2)) (Some (x3, y3)) -> psum #x1 #y1 #x2 #y2 #x3 #y3.
  Proof.
    intros O1 O2 H. pose proof (curve_in x1 y1 O1) as C1. pose proof (curve_in x2 y2 O2) as C2. unfold pcurve in *.
    inversion H as [| | |? ? ? ? l ? ? N S L|? ? l ? ? N S L]; subst; destruct L as (_ & _ & Lx & Ly).
    - assert (Sl : #y2 - #y1 = #l * (#x2 - #x1)).
      { apply (zin_iff p Hp) in S. rewrite zin_mul, !zin_sub in S by exact Hp. now symmetry. }
      assert (Nx : #x2 - #x1 <> 0).
      { rewrite <- zin_sub, zin_zero, same_zero by exact Hp. apply (small_divide c); [apply O2|apply O1|congruence]. }
      exists #l. split; [exact Sl|]. split; [|split; [|split]].
      + apply (canc (#x2 - #x1)); [exact Nx|]. transitivity (#l * (#x2 - #x1) * (#y1 + #y2)); [ring|]. rewrite <- Sl.
        transitivity (#y2 * #y2 - #y1 * #y1); [ring|]. rewrite C1, C2. ring.
      + apply (zin_iff p Hp) in Lx. rewrite !zin_add, zin_mul in Lx by exact Hp. rewrite <- Lx. ring.
      + apply (zin_iff p Hp) in Ly. rewrite zin_opp, zin_add, zin_mul, zin_sub in Ly by exact Hp. rewrite <- Ly. ring.
      + intros [E _]. apply Nx. rewrite E. ring.
    - exists #l. split; [ring|]. split; [|split; [|split]].
      + apply (zin_iff p Hp) in S. replace (2 * y2)%Z with (y2 + y2)%Z in S by ring. replace (3 * x2 * x2 + cv_a c)%Z with (x2 * x2 + x2 * x2 + x2 * x2 + cv_a c)%Z in S by ring.
        rewrite zin_mul, !zin_add, zin_mul in S by exact Hp. exact S.
      + apply (zin_iff p Hp) in Lx. rewrite !zin_add, zin_mul in Lx by exact Hp. rewrite <- Lx. ring.
      + apply (zin_iff p Hp) in Ly. rewrite zin_opp, zin_add, zin_mul, zin_sub in Ly by exact Hp. rewrite <- Ly. ring.
      + intros [_ E]. apply N. apply zin_zero. now rewrite zin_add.
  Qed.
  Lemma psum_sum (x1 y1 x2 y2 x3 y3 : Z) : on_curve c (Some (x1, y1)) -> on_curve c (Some (x2, y2)) -> (0 <= x3 < p)%Z -> (0 <= y3 < p)%Z ->
    psum #x1 #y1 #x2 #y2 #x3 #y3 -> sum_of c (Some (x1, y1)) (Some (x2, y2)) (Some (x3, y3)).
  Proof.
    intros O1 O2 X3 Y3 (l & A & B & X & Y & N). rewrite <- (zin_out p l) in *. generalize dependent (zout p l). clear l. intros l A B X Y.
    assert (L : on_line c l x1 y1 x2 x3 y3).
    { split; [exact X3|]. split; [exact Y3|]. split; apply (zin_iff p Hp).
      - rewrite !zin_add, zin_mul, X by exact Hp. ring.
      - rewrite zin_opp, zin_add, zin_mul, zin_sub, Y by exact Hp. ring. }
    destruct (Z.eq_dec x1 x2) as [<-|Ne].
    - assert (Ey : #y1 = #y2) by (symmetry; apply sub0; rewrite A; ring). apply zin_inj in Ey; [|apply O1|apply O2]. subst y2.
      apply (sum_tangent c x1 y1 l); [|apply (zin_iff p Hp)|exact L].
      + intro E. apply N. split; [reflexivity|]. rewrite <- zin_add by exact Hp. now apply zin_zero.
      + replace (2 * y1)%Z with (y1 + y1)%Z by ring. replace (3 * x1 * x1 + cv_a c)%Z with (x1 * x1 + x1 * x1 + x1 * x1 + cv_a c)%Z by ring.
        rewrite zin_mul, !zin_add, zin_mul by exact Hp. exact B.
    - apply (sum_chord c x1 y1 x2 y2 l); [exact Ne|apply (zin_iff p Hp)|exact L]. rewrite zin_mul, !zin_sub by exact Hp. now symmetry.
  Qed.
  (** Closed. *)
  Lemma psum_curve (x1 y1 x2 y2 x3 y3 : zp p) : pcurve x1 y1 -> psum x1 y1 x2 y2 x3 y3 -> pcurve x3 y3.
  Proof.
    unfold pcurve. intros C1 (l & A & B & X & Y & _). rewrite Y.
    assert (Y2 : y2 = y1 + l * (x2 - x1)) by (rewrite <- A; ring). rewrite Y2 in B.
    assert (E : l * y1 + l * y1 = x1 * x1 + x1 * x2 + x2 * x2 + #(cv_a c) - l * l * (x2 - x1)) by (rewrite <- B; ring).
    transitivity (y1 * y1 + (l * y1 + l * y1) * (x3 - x1) + l * l * (x3 - x1) * (x3 - x1)); [ring|]. rewrite C1, E.
    assert (L2 : l * l = x1 + x2 + x3) by (rewrite X; ring). rewrite L2. ring.
  Qed.
  (** Taking a point away again. *)
  Lemma psum_back (x1 y1 x2 y2 x3 y3 : zp p) : pcurve x1 y1 -> psum x1 y1 x2 y2 x3 y3 -> ~ same p (4 * cv_a c * cv_a c * cv_a c + 27 * cv_b c * cv_b c) 0%Z ->
    psum x1 (- y1) x3 y3 x2 y2.
  Proof.
    intros C1 (m & A & B & X & Y & N) D. unfold pcurve in C1.
    assert (Y2 : y2 = y1 + m * (x2 - x1)) by (rewrite <- A; ring).
    assert (L2 : m * m = x1 + x2 + x3) by (rewrite X; ring).
    assert (B' : - m * (- y1 + y3) = x1 * x1 + x1 * x3 + x3 * x3 + #(cv_a c)).
    { rewrite Y. assert (E : m * y1 + m * y1 = x1 * x1 + x1 * x2 + x2 * x2 + #(cv_a c) - m * m * (x2 - x1)) by (rewrite <- B, Y2; ring).
      transitivity (m * y1 + m * y1 + m * m * (x3 - x1)); [ring|]. rewrite E, L2. ring. }
    exists (- m). split; [rewrite Y; ring|]. split; [exact B'|]. split; [|split].
    - transitivity (m * m - x1 - x3); [rewrite L2; ring|ring].
    - rewrite Y2. ring.
    - intros [E1 E2]. rewrite <- E1 in *. rewrite E2 in B'.
      assert (T : y1 + y1 = 0).
      { assert (E3 : y3 = y1) by (apply sub0; rewrite <- E2; ring). rewrite E3 in Y. transitivity (y1 + - (y1 + m * (x1 - x1))); [rewrite <- Y; ring|ring]. }
      assert (Two : #2 <> 0).
      { rewrite zin_zero, same_zero. intro K. apply Z.divide_pos_le in K; lia. }
      assert (Z1 : y1 = 0).
      { destruct (Dom #2 y1) as [E|E]; [|contradiction|exact E]. change 2%Z with (1 + 1)%Z. rewrite zin_add by exact Hp. transitivity (y1 + y1); [ring|exact T]. }
      assert (Ea : #(cv_a c) = - (x1 * x1 + x1 * x1 + x1 * x1)) by (apply sub0; transitivity (x1 * x1 + x1 * x1 + x1 * x1 + #(cv_a c)); [ring|]; rewrite <- B'; ring).
      assert (Eb : #(cv_b c) = x1 * x1 * x1 + x1 * x1 * x1).
      { apply sub0. transitivity (- (y1 * y1) + (x1 * x1 * x1 + #(cv_a c) * x1 + #(cv_b c))); [rewrite Z1, Ea; ring|]. rewrite C1. ring. }
      apply D. apply zin_zero. rewrite !zin_add, !zin_mul, Ea, Eb by exact Hp.
      assert (E4 : #4 = 1 + 1 + 1 + 1) by (rewrite <- !zin_add by exact Hp; reflexivity).
      assert (E27 : #27 = #4 * #4 + #4 + #4 + 1 + 1 + 1) by (rewrite <- !zin_mul, <- !zin_add by exact Hp; reflexivity).
      rewrite E27, E4. ring.
  Qed.
  (** Associative. *)
  Lemma psum_assoc (x1 y1 x2 y2 x3 y3 x4 y4 x5 y5 x6 y6 x7 y7 : zp p) :
    psum x1 y1 x2 y2 x4 y4 -> psum x4 y4 x3 y3 x6 y6 -> psum x2 y2 x3 y3 x5 y5 -> psum x1 y1 x5 y5 x7 y7 ->
    (x1 = x3 /\ y1 = y3) \/ (x6 = x7 /\ y6 = y7).
  Proof.
    intros (l & A1 & B1 & X1 & Y1 & N1) (k & A2 & B2 & X2 & Y2 & N2) (m & A3 & B3 & X3 & Y3 & N3) (j & A4 & B4 & X4 & Y4 & N4).
    assert (U1 : y1 = y2 + l * (x1 - x2)) by (transitivity (y2 - (y2 - y1)); [ring|]; rewrite A1; ring).
    assert (U3 : y3 = y2 + m * (x3 - x2)) by (rewrite <- A3; ring).
    assert (U4 : y4 = - (y2 + l * (x4 - x2))) by (rewrite Y1, U1; ring).
    set (three := 1 + 1 + 1). set (s := - (three * x2)). set (a := three * x2 * x2 + #(cv_a c)).
    destruct (core _ _ _ _ _ _ (zp_ring p Hp) Dom y2 l m (x1 - x2) (x3 - x2) s a k j (x4 - x2) (x5 - x2)) as [[E1 E2]|[E1 E2]].
    - rewrite X1. unfold s, three. ring.
    - rewrite X3. unfold s, three. ring.
    - transitivity (l * (y1 + y2)); [rewrite U1; ring|]. rewrite B1. unfold s, a, three. ring.
    - transitivity (m * (y2 + y3)); [rewrite U3; ring|]. rewrite B3. unfold s, a, three. ring.
    - transitivity (y3 - y4); [rewrite U3, U4; ring|]. rewrite A2. ring.
    - transitivity (k * (y4 + y3)); [rewrite U3, U4; ring|]. rewrite B2. unfold s, a, three. ring.
    - intros E F. apply N2. split; [symmetry; transitivity (x3 - x2 + x2); [ring|]; rewrite E; ring|]. rewrite U3, U4. rewrite <- F. ring.
    - transitivity (y1 - y5); [rewrite U1, Y3; ring|]. transitivity (- (y5 - y1)); [ring|]. rewrite A4. ring.
    - transitivity (j * (y1 + y5)); [rewrite U1, Y3; ring|]. rewrite B4. unfold s, a, three. ring.
    - intros E F. apply N4. split; [transitivity (x1 - x2 + x2); [ring|]; rewrite E; ring|]. rewrite U1, Y3. rewrite <- F. ring.
    - left. assert (Ex : x1 = x3) by (transitivity (x1 - x2 + x2); [ring|]; rewrite E2; ring). split; [exact Ex|]. rewrite U1, U3, E1, Ex. reflexivity.
    - right.
      assert (V6 : k * k + s - (x4 - x2) - (x3 - x2) = x6 - x2) by (rewrite X2; unfold s, three; ring).
      assert (V7 : j * j + s - (x5 - x2) - (x1 - x2) = x7 - x2) by (rewrite X4; unfold s, three; ring).
      rewrite V6, V7 in E1. rewrite V6 in E2.
      assert (Ex : x6 = x7) by (transitivity (x6 - x2 + x2); [ring|]; rewrite E1; ring). split; [exact Ex|].
      rewrite Y2, Y4, <- Ex. f_equal.
      transitivity (- (y2 + l * (x4 - x2)) + k * (x6 - x2 - (x4 - x2))); [rewrite U4; ring|]. rewrite E2, U1. ring.
  Qed.
End Slopes.

(** ** The group *)
Section Group.
  Context (c : curve) (Hp : prime (cv_p c)) (H3 : 3 < cv_p c) (Ns : ~ same (cv_p c) (4 * cv_a c * cv_a c * cv_a c + 27 * cv_b c * cv_b c) 0).
  Local Notation p := (cv_p c).
  Add Ring ZpG : (zp_ring p Hp).
  Local Notation opp := (opposite c).
  Local Notation on := (on_curve c).
  Local Notation "P |+| Q" := (point_add c P Q) (at level 50, left associativity).
  Lemma neg_in (y : Z) : zin p ((- y) mod p) = zopp p (zin p y).
  Proof. rewrite <- zin_opp by exact Hp. apply zin_iff; [exact Hp|]. apply same_mod. lia. Qed.
  Lemma sum_add (P Q R : point) : on P -> on Q -> (sum_of c P Q R <-> P |+| Q = R).
  Proof. intros OP OQ. rewrite (sum_iff' c Hp H3 P Q R OP OQ). split; now symmetry. Qed.
  Lemma opp_on (P : point) : on P -> on (opp P).
  Proof.
    destruct P as [[x y]|]; [|trivial]. intro O. pose proof O as (X & Y & _). cbn [opposite]. apply in_curve; [exact Hp|exact X|apply Z.mod_pos_bound; lia|].
    apply curve_in in O; [|exact Hp]. unfold pcurve in *. rewrite neg_in, <- O.
    rewrite <- zin_opp, <- !zin_mul by exact Hp. f_equal. ring.
  Qed.
  Lemma opp_opp (P : point) : on P -> opp (opp P) = P.
  Proof.
    destruct P as [[x y]|]; [|reflexivity]. intros (_ & Y & _). cbn [opposite]. do 2 f_equal. apply (same_small p); [apply Z.mod_pos_bound; lia|exact Y|].
    eapply same_trans; [apply same_mod; lia|]. rewrite <- (Z.opp_involutive y) at 2. apply same_opp, same_mod. lia.
  Qed.
  Lemma law_comm (P Q : point) : on P -> on Q -> P |+| Q = Q |+| P.
  Proof. intros OP OQ. apply sum_add; [exact OP|exact OQ|]. apply sum_comm. now apply sum_add. Qed.
  Lemma law_on (P Q : point) : on P -> on Q -> on (P |+| Q).
  Proof.
    intros OP OQ. pose proof (proj2 (sum_add P Q _ OP OQ) eq_refl) as S. destruct P as [[x1 y1]|]; [|exact OQ]. destruct Q as [[x2 y2]|]; [|exact OP].
    destruct (Some (x1, y1) |+| Some (x2, y2)) as [[x3 y3]|]; [|exact I].
    assert (B : 0 <= x3 < p /\ 0 <= y3 < p) by (inversion S as [| | |? ? ? ? ? ? ? ? ? L|? ? ? ? ? ? ? L]; subst; split; apply L).
    apply in_curve; [exact Hp|apply B|apply B|]. apply (psum_curve c Hp (zin p x1) (zin p y1) (zin p x2) (zin p y2)); [now apply curve_in|now apply sum_psum].
  Qed.
  Lemma law_none (P Q : point) : on P -> on Q -> (P |+| Q = None <-> Q = opp P).
  Proof.
    intros OP OQ. rewrite <- sum_add by assumption. split.
    - intro S. inversion S as [| |x y y' E| |]; subst; try reflexivity. cbn [opposite]. do 2 f_equal.
      destruct OQ as (_ & Y' & _). apply (same_small p); [exact Y'|apply Z.mod_pos_bound; lia|]. apply (same_trans p _ (- y)); [|apply same_sym, same_mod; lia].
      unfold same in *. now replace (y' - - y) with (y + y' - 0) by ring.
    - intros ->. destruct P as [[x y]|]; [|constructor]. apply sum_opposite. pose proof (same_mod p (- y) ltac:(lia)) as S.
      pose proof (same_add p _ _ _ _ (same_refl p y) S) as T. now rewrite Z.add_opp_diag_r in T.
  Qed.
  Lemma law_back (P Q : point) : on P -> on Q -> opp P |+| (P |+| Q) = Q.
  Proof.
    intros OP OQ. pose proof (proj2 (sum_add P Q _ OP OQ) eq_refl) as S. pose proof (law_on P Q OP OQ) as OR. pose proof (opp_on P OP) as OO.
    destruct P as [[x1 y1]|]; [|reflexivity]. destruct Q as [[x2 y2]|].
    2:{ rewrite (law_comm (opp _)); [|exact OO|exact OP]. now apply law_none. }
    destruct (Some (x1, y1) |+| Some (x2, y2)) as [[x3 y3]|] eqn:E.
    - apply sum_add; [exact OO|exact OR|]. pose proof OQ as (X & Y & _). cbn [opposite]. apply psum_sum; try assumption.
      rewrite neg_in. apply psum_back; try assumption; [now apply curve_in|now apply sum_psum].
    - apply law_none in E; [|exact OP|exact OQ]. now rewrite E.
  Qed.
  Lemma law_opp (P Q : point) : on P -> on Q -> opp P |+| opp Q = opp (P |+| Q).
  Proof.
    intros OP OQ. pose proof (law_on P Q OP OQ) as OR. pose proof (opp_on P OP) as OP'. pose proof (opp_on Q OQ) as OQ'.
    pose proof (opp_on _ OR) as OR'. pose proof (proj2 (sum_add P Q _ OP OQ) eq_refl) as S.
    destruct P as [[x1 y1]|]; [|reflexivity]. destruct Q as [[x2 y2]|]; [|reflexivity].
    destruct (Some (x1, y1) |+| Some (x2, y2)) as [[x3 y3]|] eqn:E.
    - apply sum_add; [exact OP'|exact OQ'|]. cbn [opposite] in *. apply psum_sum; try assumption; [apply OR'|apply OR'|].
      rewrite !neg_in. apply sum_psum in S; [|exact Hp|exact OP|exact OQ]. destruct S as (l & A & B & X & Y & N).
      generalize dependent (zin p y3). generalize dependent (zin p x3). generalize dependent (zin p y2). generalize dependent (zin p x2).
      generalize dependent (zin p y1). generalize dependent (zin p x1). clear - Hp. intros a1 b1 a2 b2 A B N a3 X b3 Y.
      exists (zopp p l). split; [|split; [|split; [|split]]].
      + transitivity (zopp p (zsub p b2 b1)); [ring|]. rewrite A. ring.
      + transitivity (zmulp p l (zadd p b1 b2)); [ring|]. exact B.
      + rewrite X. ring.
      + rewrite Y. ring.
      + intros [E1 E2]. apply N. split; [exact E1|]. transitivity (zopp p (zadd p (zopp p b1) (zopp p b2))); [ring|]. rewrite E2. ring.
    - apply law_none in E; [|exact OP|exact OQ]. change (opp None) with (@None (Z * Z)). rewrite E in OQ' |- *. apply law_none; [exact OP'|exact OQ'|reflexivity].
  Qed.
  Lemma law_assoc (P Q R : point) : on P -> on Q -> on R -> (P |+| Q) |+| R = P |+| (Q |+| R).
  Proof.
    intros OP OQ OR. pose proof (law_on P Q OP OQ) as OPQ. pose proof (law_on Q R OQ OR) as OQR.
    pose proof (opp_on P OP) as OP'. pose proof (opp_on Q OQ) as OQ'. pose proof (opp_on R OR) as OR'.
    destruct (P |+| Q) as [[x4 y4]|] eqn:E4.
    2:{ apply law_none in E4; [|exact OP|exact OQ]. subst Q. change (None |+| R) with R. symmetry.
        rewrite <- (opp_opp P OP) at 1. now apply law_back. }
    destruct (Q |+| R) as [[x5 y5]|] eqn:E5.
    2:{ apply law_none in E5; [|exact OQ|exact OR]. subst R. rewrite <- E4, (law_comm P Q) by assumption. rewrite law_comm by (try assumption; now apply law_on).
        rewrite law_back by assumption. now destruct P as [[? ?]|]. }
    destruct (Some (x4, y4) |+| R) as [[x6 y6]|] eqn:E6.
    2:{ apply law_none in E6; [|exact OPQ|exact OR]. symmetry. apply law_none; [exact OP|exact OQR|]. rewrite <- E5.
        rewrite E6, <- E4, <- law_opp, (law_comm (opp P)) by assumption. rewrite <- (opp_opp Q OQ) at 1. now apply law_back. }
    destruct (P |+| Some (x5, y5)) as [[x7 y7]|] eqn:E7.
    2:{ apply law_none in E7; [|exact OP|exact OQR]. rewrite <- E6. apply law_none; [exact OPQ|exact OR|].
        assert (EP : P = opp (Some (x5, y5))) by (rewrite E7; symmetry; now apply opp_opp).
        rewrite <- E4, EP, <- E5, <- (law_opp Q R) by assumption. rewrite (law_comm (opp Q |+| opp R) Q) by (try assumption; now apply law_on).
        rewrite <- (opp_opp Q OQ) at 1. rewrite law_back by assumption. symmetry. now apply opp_opp. }
    destruct P as [[x1 y1]|].
    2:{ change (None |+| Q) with Q in E4. subst Q. change (None |+| Some (x5, y5)) with (Some (x5, y5)) in E7. congruence. }
    destruct Q as [[x2 y2]|].
    2:{ change (None |+| R) with R in E5. subst R. change (Some (x1, y1) |+| None) with (Some (x1, y1)) in E4. rewrite <- E4 in E6. congruence. }
    destruct R as [[x3 y3]|].
    2:{ change (Some (x2, y2) |+| None) with (Some (x2, y2)) in E5. rewrite <- E5 in E7. change (Some (x4, y4) |+| None) with (Some (x4, y4)) in E6. congruence. }
    pose proof (law_on _ _ OPQ OR) as O6. rewrite E6 in O6. pose proof (law_on _ _ OP OQR) as O7. rewrite E7 in O7.
    apply sum_add in E4, E5, E6, E7; try assumption.
    assert (F4 := sum_psum c Hp _ _ _ _ _ _ OP OQ E4). assert (F5 := sum_psum c Hp _ _ _ _ _ _ OQ OR E5).
    assert (F6 := sum_psum c Hp _ _ _ _ _ _ OPQ OR E6). assert (F7 := sum_psum c Hp _ _ _ _ _ _ OP OQR E7).
    destruct (psum_assoc c Hp _ _ _ _ _ _ _ _ _ _ _ _ _ _ F4 F6 F5 F7) as [[Ex Ey]|[Ex Ey]].
    - apply zin_inj in Ex, Ey; try exact Hp; try apply OP; try apply OR. subst x3 y3.
      apply sum_add in E4, E5, E6, E7; try assumption. rewrite <- E6, <- E7, <- E4, <- E5.
      rewrite (law_comm (Some (x2, y2))) by assumption. apply law_comm; [now apply law_on|assumption].
    - apply zin_inj in Ex, Ey; try exact Hp; try apply O6; try apply O7. now subst.
  Qed.

  (** Multiples of a point on the curve. *)
  Lemma multiple_on (G R : point) (k : nat) : on G -> multiple c G k R -> on R.
  Proof.
    intro O. revert R. induction k as [|k IH]; intros R M; inversion M as [|k' R1 R2 M' S']; subst; [exact I|].
    specialize (IH R1 M'). apply sum_add in S'; [|exact IH|exact O]. subst R. now apply law_on.
  Qed.
  Lemma multiple_sum (G P Q R : point) (a b : nat) : on G -> multiple c G a P -> multiple c G b Q -> sum_of c P Q R -> multiple c G (a + b) R.
  Proof.
    intros O M. pose proof (multiple_on G P a O M) as OP. revert Q R. induction b as [|b IH]; intros Q R M' S'.
    - inversion M'; subst. apply sum_add in S'; [|exact OP|exact I]. rewrite Nat.add_0_r. replace R with P; [exact M|].
      rewrite <- S'. now destruct P as [[x y]|].
    - pose proof (multiple_on G Q (S b) O M') as OQ. inversion M' as [|k' Q1 Q2 M1 S1]; subst. pose proof (multiple_on G Q1 b O M1) as O1.
      rewrite Nat.add_succ_r. apply (mult_S c G (a + b) (P |+| Q1)).
      + apply (IH Q1); [exact M1|]. now apply sum_add.
      + apply sum_add in S', S1; try assumption. apply sum_add; [now apply law_on|exact O|]. rewrite <- S', <- S1. now apply law_assoc.
  Qed.
End Group.

Lemma good_group (c : curve) : good_curve c -> curve_group c.
Proof.
  intros (Hp & H3 & Hn & H2 & Ns & O & M). pose proof (proj1 H3) as P3.
  assert (A : forall P Q R, on_curve c P -> on_curve c Q -> sum_of c P Q R -> point_add c P Q = R) by (intros; now apply sum_add).
  assert (Closed : forall P Q R, on_curve c P -> on_curve c Q -> sum_of c P Q R -> on_curve c R).
  { intros P Q R OP OQ S. rewrite <- (A P Q R OP OQ S). now apply law_on. }
  split; [exact Hp|]. split; [exact H3|]. split; [exact Hn|]. split; [exact H2|]. split; [exact O|]. split; [exact Closed|]. split; [|exact M].
  intros P Q R PQ QR X Y OP OQ OR S1 S2 S3 S4. pose proof (Closed _ _ _ OP OQ S1) as O1. pose proof (Closed _ _ _ OQ OR S3) as O2.
  rewrite <- (A _ _ _ O1 OR S2), <- (A _ _ _ OP O2 S4), <- (A _ _ _ OP OQ S1), <- (A _ _ _ OQ OR S3). now apply law_assoc.
Qed.
Lemma good_laws (c : curve) : good_curve c -> forall P Q R : point, on_curve c P -> on_curve c Q -> on_curve c R ->
  (exists S, sum_of c P Q S /\ on_curve c S /\ sum_of c Q P S /\ forall S', sum_of c P Q S' -> S' = S)
  /\ (exists P', sum_of c P P' None /\ on_curve c P')
  /\ forall PQ QR X, sum_of c P Q PQ -> sum_of c Q R QR -> (sum_of c PQ R X <-> sum_of c P QR X).
Proof.
  intros GC P Q R OP OQ OR. pose proof (good_group c GC) as CG. split; [|split].
  - exists (point_add c P Q). split; [now apply (add_sum c CG)|]. split; [now apply (add_on c CG)|]. split; [apply sum_comm; now apply (add_sum c CG)|].
    intros S' H. now apply (sum_iff c CG).
  - exists (opposite c P). split; [|now apply (opposite_on c CG)]. apply (sum_iff c CG); [exact OP|now apply (opposite_on c CG)|]. symmetry. now apply (add_opposite c CG).
  - intros PQ QR X H K. apply (sum_iff c CG) in H, K; try assumption. subst PQ QR. rewrite (sum_iff c CG), (sum_iff c CG) by auto using (add_on c CG).
    now rewrite (add_assoc c CG).
Qed.
