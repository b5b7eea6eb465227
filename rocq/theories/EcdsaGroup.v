(** The points of a curve with the operations of Ecdsa.v. *)
From Verif Require Export SpecEcdsa.
From Verif Require Import StrFacts RsaNum RsaFacts.
Local Open Scope Z_scope.

(** ** Congruences *)
Lemma same_refl (m x : Z) : same m x x.
Proof. unfold same. rewrite Z.sub_diag. apply Z.divide_0_r. Qed.
Lemma same_sym (m x y : Z) : same m x y -> same m y x.
Proof. unfold same. intro H. replace (y - x) with (- (x - y)) by ring. now apply Z.divide_opp_r. Qed.
Lemma same_trans (m x y z : Z) : same m x y -> same m y z -> same m x z.
Proof. unfold same. intros H K. replace (x - z) with ((x - y) + (y - z)) by ring. now apply Z.divide_add_r. Qed.
Lemma same_mod (m x : Z) : m <> 0 -> same m (x mod m) x.
Proof. intro M. exists (- (x / m)). pose proof (Z.div_mod x m M). lia. Qed.
Lemma same_iff (m x y : Z) : m <> 0 -> (same m x y <-> x mod m = y mod m).
Proof.
  intro M. split.
  - intros [k H]. replace x with (y + k * m) by lia. now apply Z_mod_plus_full.
  - intro H. apply (same_trans m x (x mod m)); [apply same_sym, same_mod, M|]. rewrite H. now apply same_mod.
Qed.
Lemma same_small (m x y : Z) : 0 <= x < m -> 0 <= y < m -> same m x y -> x = y.
Proof. intros X Y H. apply same_iff in H; [|lia]. now rewrite !Z.mod_small in H. Qed.
Lemma same_add (m a b c d : Z) : same m a b -> same m c d -> same m (a + c) (b + d).
Proof. unfold same. intros H K. replace (a + c - (b + d)) with ((a - b) + (c - d)) by ring. now apply Z.divide_add_r. Qed.
Lemma same_mul (m a b c d : Z) : same m a b -> same m c d -> same m (a * c) (b * d).
Proof.
  unfold same. intros H K. replace (a * c - b * d) with ((a - b) * c + b * (c - d)) by ring.
  apply Z.divide_add_r; [now apply Z.divide_mul_l|now apply Z.divide_mul_r].
Qed.
Lemma same_opp (m a b : Z) : same m a b -> same m (- a) (- b).
Proof. unfold same. intro H. replace (- a - - b) with (- (a - b)) by ring. now apply Z.divide_opp_r. Qed.
Lemma same_zero (m x : Z) : same m x 0 <-> (m | x).
Proof. unfold same. now rewrite Z.sub_0_r. Qed.

(** ** Primes *)
Lemma prime_is (p : Z) : prime p -> is_prime (Z.to_N p).
Proof.
  intro P. pose proof (prime_ge_2 p P) as G. split; [lia|]. intros d [k H].
  assert (D : (Z.of_N d | p)) by (exists (Z.of_N k); lia).
  apply prime_divisors in D; [|exact P]. destruct D as [D|[D|[D|D]]]; lia.
Qed.
Lemma prime_split (p a b : Z) : prime p -> (p | a * b) -> (p | a) \/ (p | b).
Proof. intros P H. now apply prime_mult. Qed.
Lemma inverse_same (p x : Z) : prime p -> ~ (p | x) -> same p (x * inverse p x) 1.
Proof.
  intros P D. pose proof (prime_ge_2 p P) as G. apply same_iff; [lia|]. unfold inverse.
  set (a := Z.to_N (x mod p)). pose proof (Z.mod_pos_bound x p ltac:(lia)) as B.
  assert (Ea : Z.of_N a = x mod p) by (unfold a; apply Z2N.id; lia).
  rewrite pow_mod_eq by lia. rewrite N2Z.inj_mod, N2Z.inj_pow, !Z2N.id by lia. rewrite Ea.
  rewrite <- Zmult_mod_idemp_l, Zmult_mod_idemp_r.
  replace (x mod p * (x mod p) ^ (p - 2)) with ((x mod p) ^ (p - 1)).
  2:{ replace (p - 1) with (Z.succ (p - 2)) by lia. rewrite Z.pow_succ_r by lia. reflexivity. }
  pose proof (fermat (Z.to_N p) a (prime_is p P)) as F.
  assert (N : ~ (Z.to_N p | a)%N).
  { intros [k H]. apply D. apply Z.mod_divide; [lia|]. rewrite <- Ea. assert (E : x mod p = Z.of_N k * p) by lia.
    rewrite Ea. assert (Z.of_N k = 0) by nia. nia. }
  specialize (F N). apply (f_equal Z.of_N) in F. rewrite !N2Z.inj_mod, N2Z.inj_pow, N2Z.inj_sub, !Z2N.id, Ea in F by lia. exact F.
Qed.
(** Cancelling. *)
Lemma same_cancel (p a x y : Z) : prime p -> ~ (p | a) -> same p (a * x) (a * y) -> same p x y.
Proof.
  intros P N H. unfold same in *. replace (a * x - a * y) with (a * (x - y)) in H by ring.
  apply prime_split in H; [|exact P]. destruct H; [contradiction|assumption].
Qed.

(** ** The sum *)
Section Law.
  Context (c : curve) (Hp : prime (cv_p c)) (H3 : 3 < cv_p c).
  Local Notation p := (cv_p c).
  Lemma third_on_line (l x1 y1 x2 : Z) : exists x3 y3, third_point c l x1 y1 x2 = Some (x3, y3) /\ on_line c l x1 y1 x2 x3 y3.
  Proof.
    pose proof H3 as P3. unfold third_point. eexists _, _. split; [reflexivity|]. unfold on_line.
    split; [apply Z.mod_pos_bound; lia|]. split; [apply Z.mod_pos_bound; lia|]. split.
    - pose proof (same_mod p (l * l - x1 - x2) ltac:(lia)) as H. unfold same in *.
      replace (x1 + x2 + (l * l - x1 - x2) mod p - l * l) with ((l * l - x1 - x2) mod p - (l * l - x1 - x2)) by ring. exact H.
    - set (x3 := (l * l - x1 - x2) mod p). pose proof (same_mod p (l * (x1 - x3) - y1) ltac:(lia)) as H. apply same_opp in H. unfold same in *.
      replace (- ((l * (x1 - x3) - y1) mod p) - (y1 + l * (x3 - x1))) with (- ((l * (x1 - x3) - y1) mod p) - - (l * (x1 - x3) - y1)) by ring. exact H.
  Qed.
  Lemma line_unique (l l' x1 y1 x2 x3 y3 x3' y3' : Z) : same p l l' -> on_line c l x1 y1 x2 x3 y3 -> on_line c l' x1 y1 x2 x3' y3' ->
    x3 = x3' /\ y3 = y3'.
  Proof.
    intros E (A & B & C & D) (A' & B' & C' & D').
    assert (X : x3 = x3').
    { apply (same_small p); [assumption|assumption|]. pose proof (same_mul _ _ _ _ _ E E) as S.
      pose proof (same_trans _ _ _ _ (same_trans _ _ _ _ C S) (same_sym _ _ _ C')) as T. unfold same in *.
      now replace (x3 - x3') with (x1 + x2 + x3 - (x1 + x2 + x3')) by ring. }
    split; [exact X|]. subst x3'. apply (same_small p); [assumption|assumption|].
    assert (S : same p (y1 + l * (x3 - x1)) (y1 + l' * (x3 - x1))) by (apply same_add; [apply same_refl|apply same_mul; [exact E|apply same_refl]]).
    pose proof (same_trans _ _ _ _ (same_trans _ _ _ _ D S) (same_sym _ _ _ D')) as T. apply same_opp in T. now rewrite !Z.opp_involutive in T.
  Qed.
  Lemma small_divide (x y : Z) : 0 <= x < p -> 0 <= y < p -> x <> y -> ~ (p | x - y).
  Proof. intros X Y N H. apply N. now apply (same_small p). Qed.
  (** Two points with the same abscissa. *)
  Lemma same_abscissa' (x y y' : Z) : on_curve c (Some (x, y)) -> on_curve c (Some (x, y')) -> y = y' \/ same p (y + y') 0.
  Proof.
    intros (_ & B & H) (_ & B' & H').
    assert (D : (p | (y - y') * (y + y'))).
    { replace ((y - y') * (y + y')) with ((y * y - (x * x * x + cv_a c * x + cv_b c)) - (y' * y' - (x * x * x + cv_a c * x + cv_b c))) by ring.
      now apply Z.divide_sub_r. }
    apply prime_split in D; [|exact Hp]. destruct D as [D|D].
    - left. now apply (same_small p).
    - right. now apply same_zero.
  Qed.
  Lemma add_sum' (P Q : point) : on_curve c P -> on_curve c Q -> sum_of c P Q (point_add c P Q).
  Proof.
    intros OP OQ. pose proof H3 as P3. destruct P as [[x1 y1]|]; [|constructor]. destruct Q as [[x2 y2]|]; [|constructor].
    unfold point_add. destruct (Z.eqb_spec x1 x2) as [<-|N].
    - destruct (Z.eqb_spec ((y1 + y2) mod p) 0) as [E|E].
      + apply sum_opposite. apply same_iff; [lia|]. now rewrite E, Z.mod_0_l by lia.
      + assert (M : ~ same p (y1 + y2) 0) by (intro M; apply same_iff in M; [|lia]; rewrite Z.mod_0_l in M by lia; contradiction).
        destruct (same_abscissa' x1 y1 y2 OP OQ) as [<-|K]; [|contradiction].
        assert (D : ~ (p | 2 * y1)) by (rewrite <- same_zero; replace (2 * y1) with (y1 + y1) by ring; exact M).
        destruct (third_on_line ((3 * x1 * x1 + cv_a c) * inverse p (2 * y1)) x1 y1 x1) as (x3 & y3 & -> & L).
        apply (sum_tangent c x1 y1 ((3 * x1 * x1 + cv_a c) * inverse p (2 * y1))); [exact M| |exact L].
        pose proof (inverse_same p (2 * y1) Hp D) as I. pose proof (same_mul p _ _ _ _ (same_refl p (3 * x1 * x1 + cv_a c)) I) as J.
        rewrite Z.mul_1_r in J. eapply same_trans; [|exact J]. replace ((3 * x1 * x1 + cv_a c) * (2 * y1 * inverse p (2 * y1))) with ((3 * x1 * x1 + cv_a c) * inverse p (2 * y1) * (2 * y1)) by ring.
        apply same_refl.
    - destruct OP as (B1 & _), OQ as (B2 & _).
      assert (D : ~ (p | x2 - x1)) by (apply small_divide; auto).
      destruct (third_on_line ((y2 - y1) * inverse p (x2 - x1)) x1 y1 x2) as (x3 & y3 & -> & L).
      apply (sum_chord c x1 y1 x2 y2 ((y2 - y1) * inverse p (x2 - x1))); [exact N| |exact L].
      pose proof (inverse_same p (x2 - x1) Hp D) as I. pose proof (same_mul p _ _ _ _ (same_refl p (y2 - y1)) I) as J.
      rewrite Z.mul_1_r in J. eapply same_trans; [|exact J]. replace ((y2 - y1) * ((x2 - x1) * inverse p (x2 - x1))) with ((y2 - y1) * inverse p (x2 - x1) * (x2 - x1)) by ring.
      apply same_refl.
  Qed.
  Lemma sum_unique' (P Q R R' : point) : on_curve c P -> on_curve c Q -> sum_of c P Q R -> sum_of c P Q R' -> R = R'.
  Proof.
    intros OP OQ H. inversion H as [P0|P0|x y y' S|x1 y1 x2 y2 l x3 y3 N S L|x y l x3 y3 N S L]; subst; intro K.
    - inversion K; reflexivity.
    - inversion K; reflexivity.
    - inversion K as [| |? ? ? S'|? ? ? ? l' ? ? N' S' L'|? ? l' ? ? N' S' L']; subst; try reflexivity; contradiction.
    - inversion K as [| |? ? ? S'|? ? ? ? l' ? ? N' S' L'|? ? l' ? ? N' S' L']; subst; try contradiction.
      assert (E : same p l l').
      { apply (same_cancel p (x2 - x1)); [exact Hp|destruct OP as (? & _), OQ as (? & _); apply small_divide; auto|].
        rewrite (Z.mul_comm _ l), (Z.mul_comm _ l'). eapply same_trans; [exact S|apply same_sym; exact S']. }
      destruct (line_unique l l' x1 y1 x2 _ _ _ _ E L L') as [-> ->]. reflexivity.
    - inversion K as [| |? ? ? S'|? ? ? ? l' ? ? N' S' L'|? ? l' ? ? N' S' L']; subst; try contradiction.
      assert (E : same p l l').
      { apply (same_cancel p (2 * y)); [exact Hp|rewrite <- same_zero; replace (2 * y) with (y + y) by ring; exact N|].
        rewrite (Z.mul_comm _ l), (Z.mul_comm _ l'). eapply same_trans; [exact S|apply same_sym; exact S']. }
      destruct (line_unique l l' x y x _ _ _ _ E L L') as [-> ->]. reflexivity.
  Qed.
  Lemma sum_iff' (P Q R : point) : on_curve c P -> on_curve c Q -> (sum_of c P Q R <-> R = point_add c P Q).
  Proof.
    intros OP OQ. split.
    - intro H. exact (sum_unique' P Q _ _ OP OQ H (add_sum' P Q OP OQ)).
    - intros ->. now apply add_sum'.
  Qed.
  Lemma sum_comm (P Q R : point) : sum_of c P Q R -> sum_of c Q P R.
  Proof.
    intro H. inversion H as [P0|P0|x y y' S|x1 y1 x2 y2 l x3 y3 N S L|x y l x3 y3 N S L]; subst.
    - constructor.
    - constructor.
    - apply sum_opposite. now rewrite Z.add_comm.
    - apply (sum_chord c x2 y2 x1 y1 l); [congruence| |].
      + unfold same in *. replace (l * (x1 - x2) - (y1 - y2)) with (- (l * (x2 - x1) - (y2 - y1))) by ring. now apply Z.divide_opp_r.
      + destruct L as (A & B & C & D). unfold on_line. split; [exact A|]. split; [exact B|]. split; [now rewrite (Z.add_comm x2)|].
        unfold same in *. replace (- y3 - (y2 + l * (x3 - x2))) with ((- y3 - (y1 + l * (x3 - x1))) + (l * (x2 - x1) - (y2 - y1))) by ring.
        now apply Z.divide_add_r.
    - exact H.
  Qed.

End Law.

(** The points are a group: good curves are, see EcdsaLaw.v. *)
Definition curve_group (c : curve) : Prop :=
  prime (cv_p c) /\ 3 < cv_p c < 2 ^ 256 /\ prime (cv_n c) /\ 2 < cv_n c < 2 ^ 256
  /\ on_curve c (Some (cv_gx c, cv_gy c))
  /\ (forall P Q R, on_curve c P -> on_curve c Q -> sum_of c P Q R -> on_curve c R)
  /\ (forall P Q R PQ QR X Y, on_curve c P -> on_curve c Q -> on_curve c R ->
        sum_of c P Q PQ -> sum_of c PQ R X -> sum_of c Q R QR -> sum_of c P QR Y -> X = Y)
  /\ multiple c (Some (cv_gx c, cv_gy c)) (Z.to_nat (cv_n c)) None.

Section Curve.
  Context (c : curve) (CG : curve_group c).
  Local Notation p := (cv_p c).
  Local Notation n := (cv_n c).
  Lemma cg_p : prime p. Proof. apply CG. Qed.
  Lemma cg_p3 : 3 < p. Proof. apply CG. Qed.
  Lemma cg_n : prime n. Proof. apply CG. Qed.
  Lemma cg_n2 : 2 < n. Proof. apply CG. Qed.
  Lemma same_abscissa (x y y' : Z) : on_curve c (Some (x, y)) -> on_curve c (Some (x, y')) -> y = y' \/ same p (y + y') 0.
  Proof. exact (same_abscissa' c cg_p x y y'). Qed.
  Lemma add_sum (P Q : point) : on_curve c P -> on_curve c Q -> sum_of c P Q (point_add c P Q).
  Proof. exact (add_sum' c cg_p cg_p3 P Q). Qed.
  Lemma sum_iff (P Q R : point) : on_curve c P -> on_curve c Q -> (sum_of c P Q R <-> R = point_add c P Q).
  Proof. exact (sum_iff' c cg_p cg_p3 P Q R). Qed.

  (** ** The group *)
  Notation "P |+| Q" := (point_add c P Q) (at level 50, left associativity).
  Lemma add_on (P Q : point) : on_curve c P -> on_curve c Q -> on_curve c (P |+| Q).
  Proof. intros OP OQ. destruct CG as (_ & _ & _ & _ & _ & C & _). exact (C P Q _ OP OQ (add_sum P Q OP OQ)). Qed.
  Lemma add_comm (P Q : point) : on_curve c P -> on_curve c Q -> P |+| Q = Q |+| P.
  Proof. intros OP OQ. apply (sum_iff Q P); [assumption|assumption|]. apply sum_comm. now apply add_sum. Qed.
  Lemma add_assoc (P Q R : point) : on_curve c P -> on_curve c Q -> on_curve c R -> (P |+| Q) |+| R = P |+| (Q |+| R).
  Proof.
    intros OP OQ OR. destruct CG as (_ & _ & _ & _ & _ & _ & A & _).
    apply (A P Q R (P |+| Q) (Q |+| R)); auto using add_sum, add_on.
  Qed.
  Lemma add_zero (P : point) : P |+| None = P.
  Proof. now destruct P as [[x y]|]. Qed.
  Definition opposite (P : point) : point := match P with Some (x, y) => Some (x, (- y) mod p) | None => None end.
  Lemma opposite_on (P : point) : on_curve c P -> on_curve c (opposite P).
  Proof.
    pose proof cg_p3 as P3. destruct P as [[x y]|]; [|trivial]. intros (X & Y & H). cbn [opposite on_curve].
    split; [exact X|]. split; [apply Z.mod_pos_bound; lia|].
    pose proof (same_mod p (- y) ltac:(lia)) as S. pose proof (same_mul p _ _ _ _ S S) as T. replace (- y * - y) with (y * y) in T by ring.
    exact (same_trans p _ _ _ T H).
  Qed.
  Lemma add_opposite (P : point) : on_curve c P -> P |+| opposite P = None.
  Proof.
    intro O. pose proof cg_p3 as P3. symmetry. apply sum_iff; [exact O|now apply opposite_on|]. destruct P as [[x y]|]; [|constructor]. apply sum_opposite.
    pose proof (same_mod p (- y) ltac:(lia)) as S. pose proof (same_add p _ _ _ _ (same_refl p y) S) as T. now rewrite Z.add_opp_diag_r in T.
  Qed.
  Lemma opposite_unique (P Q : point) : on_curve c P -> on_curve c Q -> P |+| Q = None -> Q = opposite P.
  Proof.
    intros OP OQ H. pose proof (opposite_on P OP) as OO.
    assert (E : (opposite P |+| P) |+| Q = opposite P |+| (P |+| Q)) by now apply add_assoc.
    rewrite H, add_zero, (add_comm (opposite P) P OO OP), (add_opposite P OP) in E. exact E.
  Qed.
  Lemma opposite_add (P Q : point) : on_curve c P -> on_curve c Q -> opposite (P |+| Q) = opposite P |+| opposite Q.
  Proof.
    intros OP OQ. pose proof (opposite_on P OP) as OP'. pose proof (opposite_on Q OQ) as OQ'. symmetry. apply opposite_unique; auto using add_on.
    rewrite add_assoc by auto using add_on. rewrite (add_comm (opposite P)) by assumption. rewrite <- (add_assoc Q) by assumption.
    rewrite add_opposite by assumption. exact (add_opposite P OP).
  Qed.

  (** ** Multiples *)
  Fixpoint times (k : nat) (P : point) : point := match k with O => None | S k' => times k' P |+| P end.
  Lemma times_on (k : nat) (P : point) : on_curve c P -> on_curve c (times k P).
  Proof. intro O. induction k as [|k IH]; [exact I|]. cbn [times]. now apply add_on. Qed.
  Lemma multiple_iff (k : nat) (P R : point) : on_curve c P -> (multiple c P k R <-> R = times k P).
  Proof.
    intro O. revert R. induction k as [|k IH]; intro R.
    - split; [intro H; inversion H; reflexivity|intros ->; constructor].
    - split.
      + intro H. inversion H as [|k' R1 R2 M S]; subst. apply IH in M. subst R1. cbn [times]. apply sum_iff; [now apply times_on|exact O|exact S].
      + intros ->. apply (mult_S c P k (times k P)); [now apply IH|]. cbn [times]. apply add_sum; [now apply times_on|exact O].
  Qed.
  Lemma times_add (a b : nat) (P : point) : on_curve c P -> times (a + b) P = times a P |+| times b P.
  Proof.
    intro O. induction b as [|b IH].
    - rewrite Nat.add_0_r, add_zero. reflexivity.
    - rewrite Nat.add_succ_r. cbn [times]. rewrite IH. apply add_assoc; auto using times_on.
  Qed.
  Lemma times_none (a : nat) : times a None = None.
  Proof. induction a as [|a IH]; [reflexivity|]. cbn [times]. now rewrite IH. Qed.
  Lemma times_mul (a b : nat) (P : point) : on_curve c P -> times (a * b) P = times a (times b P).
  Proof.
    intro O. induction a as [|a IH]; [reflexivity|]. cbn [Nat.mul times]. rewrite Nat.add_comm, times_add by exact O. now rewrite IH.
  Qed.
  Lemma mul_pos_times (k : positive) (P : point) : on_curve c P -> point_mul_pos c k P = times (Pos.to_nat k) P.
  Proof.
    intro O. assert (One : times 1 P = P) by reflexivity.
    induction k as [k IH|k IH|]; cbn [point_mul_pos]; [| |exact (eq_sym One)].
    - rewrite IH, <- times_add by exact O. rewrite Pos2Nat.inj_xI. replace (S (2 * Pos.to_nat k)) with (S (Pos.to_nat k + Pos.to_nat k)) by lia. reflexivity.
    - rewrite IH, <- times_add by exact O. rewrite Pos2Nat.inj_xO. f_equal. lia.
  Qed.
  Lemma mul_times (k : Z) (P : point) : on_curve c P -> 0 <= k -> point_mul c k P = times (Z.to_nat k) P.
  Proof. intros O K. destruct k as [|k|k]; [reflexivity| |lia]. cbn [point_mul Z.to_nat]. now apply mul_pos_times. Qed.
  (** Points whose order divides [n]. *)
  Definition in_group (P : point) : Prop := on_curve c P /\ times (Z.to_nat n) P = None.
  Lemma generator_in : in_group (generator c).
  Proof. destruct CG as (_ & _ & _ & _ & O & _ & _ & H). split; [exact O|]. apply multiple_iff in H; [now symmetry|exact O]. Qed.
  Lemma times_in (k : nat) (P : point) : in_group P -> in_group (times k P).
  Proof. intros [O H]. split; [now apply times_on|]. rewrite <- times_mul, Nat.mul_comm, times_mul, H by exact O. apply times_none. Qed.
  Lemma multiple_in (k : nat) (P R : point) : in_group P -> multiple c P k R -> in_group R.
  Proof. intros I M. apply multiple_iff in M; [|apply I]. subst R. now apply times_in. Qed.
  Definition zmul (k : Z) (P : point) : point := times (Z.to_nat (k mod n)) P.
  Lemma zmul_on (k : Z) (P : point) : on_curve c P -> on_curve c (zmul k P).
  Proof. apply times_on. Qed.
  Lemma mul_zmul (k : Z) (P : point) : on_curve c P -> point_mul c (k mod n) P = zmul k P.
  Proof. intro O. pose proof cg_n2. apply mul_times; [exact O|]. apply Z.mod_pos_bound. lia. Qed.
  Lemma times_small (k : Z) (P : point) : 0 <= k < n -> times (Z.to_nat k) P = zmul k P.
  Proof. intro K. unfold zmul. now rewrite Z.mod_small. Qed.
  Lemma times_zmul (k : nat) (P : point) : in_group P -> times k P = zmul (Z.of_nat k) P.
  Proof.
    intros [O H]. pose proof cg_n2 as N2. unfold zmul. pose proof (Z.div_mod (Z.of_nat k) n ltac:(lia)) as E.
    pose proof (Z.mod_pos_bound (Z.of_nat k) n ltac:(lia)) as B. pose proof (Z.div_pos (Z.of_nat k) n ltac:(lia) ltac:(lia)) as D.
    assert (Ek : k = (Z.to_nat (Z.of_nat k / n) * Z.to_nat n + Z.to_nat (Z.of_nat k mod n))%nat).
    { apply Nat2Z.inj. rewrite Nat2Z.inj_add, Nat2Z.inj_mul, !Z2Nat.id by lia. lia. }
    rewrite Ek at 1. rewrite times_add, times_mul, H, times_none by exact O. reflexivity.
  Qed.
  Lemma zmul_same (a b : Z) (P : point) : same n a b -> zmul a P = zmul b P.
  Proof. intro H. pose proof cg_n2. unfold zmul. apply same_iff in H; [|lia]. now rewrite H. Qed.
  Lemma zmul_add (a b : Z) (P : point) : in_group P -> zmul (a + b) P = zmul a P |+| zmul b P.
  Proof.
    intro O. pose proof cg_n2 as N2. unfold zmul at 2 3. rewrite <- times_add by apply O. rewrite times_zmul by exact O. apply zmul_same.
    pose proof (Z.mod_pos_bound a n ltac:(lia)). pose proof (Z.mod_pos_bound b n ltac:(lia)).
    rewrite Nat2Z.inj_add, !Z2Nat.id by lia. apply same_sym, same_add; apply same_mod; lia.
  Qed.
  Lemma zmul_mul (a b : Z) (P : point) : in_group P -> zmul (a * b) P = zmul a (zmul b P).
  Proof.
    intro O. pose proof cg_n2 as N2. unfold zmul at 2 3. rewrite <- times_mul by apply O. rewrite times_zmul by exact O. apply zmul_same.
    pose proof (Z.mod_pos_bound a n ltac:(lia)). pose proof (Z.mod_pos_bound b n ltac:(lia)).
    rewrite Nat2Z.inj_mul, !Z2Nat.id by lia. apply same_sym, same_mul; apply same_mod; lia.
  Qed.
  Lemma zmul_opp (a : Z) (P : point) : in_group P -> zmul (- a) P = opposite (zmul a P).
  Proof.
    intro O. pose proof cg_n2. apply opposite_unique; [apply zmul_on, O|apply zmul_on, O|]. rewrite <- zmul_add by exact O. rewrite Z.add_opp_diag_r.
    unfold zmul. now rewrite Z.mod_0_l by lia.
  Qed.
  Lemma zmul_one (P : point) : zmul 1 P = P.
  Proof. pose proof cg_n2. unfold zmul. now rewrite Z.mod_small by lia. Qed.
  (** The order is not smaller. *)
  Lemma zmul_none (a : Z) (P : point) : in_group P -> P <> None -> zmul a P = None -> (n | a).
  Proof.
    intros I N H. destruct (Zdivide_dec n a) as [D|D]; [exact D|]. elim N.
    pose proof (inverse_same n a cg_n D) as E. rewrite <- (zmul_one P), <- (zmul_same (a * inverse n a) 1 P E).
    rewrite Z.mul_comm, zmul_mul, H by exact I. apply times_none.
  Qed.
  Lemma zmul_inj (a b : Z) (P : point) : in_group P -> P <> None -> zmul a P = zmul b P -> same n a b.
  Proof.
    intros I N H. apply (zmul_none (a - b) P I N). replace (a - b) with (a + - b) by ring. rewrite zmul_add, zmul_opp, H by exact I.
    apply add_opposite, zmul_on, I.
  Qed.
End Curve.
