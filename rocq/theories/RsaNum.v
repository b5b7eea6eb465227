(** Numbers behind RSA: Fermat's little theorem, and powers modulo a product of primes. *)
From Coq Require Import Permutation.
From Verif Require Export SpecRsa.
From Verif Require Import StrFacts.
Local Open Scope N_scope.

(** ** Divisibility *)
Lemma divide_mod (p x : N) : p <> 0 -> ((p | x) <-> x mod p = 0).
Proof. intro P. symmetry. now apply N.mod_divide. Qed.
Lemma same_mod (p x y : N) : p <> 0 -> y <= x -> (x mod p = y mod p <-> (p | x - y)).
Proof.
  intros P L. split; intro H.
  - exists (x / p - y / p). rewrite N.mul_sub_distr_r.
    pose proof (N.div_mod x p P). pose proof (N.div_mod y p P).
    assert (y / p <= x / p) by now apply N.div_le_mono. nia.
  - destruct H as [k H]. replace x with (y + k * p) by lia. now apply N.mod_add.
Qed.
Lemma prime_pos (p : N) : is_prime p -> p <> 0.
Proof. intros [L _]. lia. Qed.
Lemma prime_coprime (p a : N) : is_prime p -> ~ (p | a) -> N.gcd p a = 1.
Proof.
  intros [L D] N. destruct (D (N.gcd p a) (N.gcd_divide_l p a)) as [E|E]; [exact E|].
  exfalso. apply N. rewrite <- E. apply N.gcd_divide_r.
Qed.
Lemma prime_cancel (p a b : N) : is_prime p -> ~ (p | a) -> (p | a * b) -> (p | b).
Proof. intros P N H. apply (N.gauss p a b H). now apply prime_coprime. Qed.

(** ** Fermat's little theorem *)
Definition product (l : list N) : N := fold_right N.mul 1 l.
Definition below (p : N) : list N := map N.of_nat (seq 1 (N.to_nat (p - 1))).
Lemma in_below (p x : N) : In x (below p) <-> 0 < x < p.
Proof.
  unfold below. rewrite in_map_iff. split.
  - intros (i & <- & H). apply in_seq in H. lia.
  - intro H. exists (N.to_nat x). split; [apply N2Nat.id|]. apply in_seq. lia.
Qed.
Lemma product_perm (l l' : list N) : Permutation l l' -> product l = product l'.
Proof. induction 1; cbn [product fold_right]; unfold product in *; lia. Qed.
Lemma product_mod (p a : N) (l : list N) : p <> 0 ->
  product (map (fun i => a * i mod p) l) mod p = (a ^ N.of_nat (List.length l) * product l) mod p.
Proof.
  intro P. induction l as [|x l IH]; [reflexivity|].
  cbn [map product fold_right List.length]. fold (product (map (fun i => a * i mod p) l)). fold (product l).
  rewrite Nat2N.inj_succ, N.pow_succ_r'.
  rewrite N.mul_mod_idemp_l by exact P. rewrite <- N.mul_mod_idemp_r by exact P. rewrite IH.
  rewrite N.mul_mod_idemp_r by exact P. f_equal. ring.
Qed.
Lemma product_coprime (p : N) (l : list N) : is_prime p -> (forall x, In x l -> 0 < x < p) -> ~ (p | product l).
Proof.
  intros P. induction l as [|x l IH]; intros B H.
  - apply N.divide_1_r in H. destruct P. lia.
  - cbn [product fold_right] in H. fold (product l) in H. apply (prime_cancel p x) in H; [|exact P|].
    + apply IH; [intros y I; apply B; now right|exact H].
    + intro D. apply N.divide_pos_le in D; specialize (B x (or_introl eq_refl)); lia.
Qed.
Lemma fermat (p a : N) : is_prime p -> ~ (p | a) -> a ^ (p - 1) mod p = 1 mod p.
Proof.
  intros P D. pose proof (prime_pos p P) as Z. assert (L1 : 1 < p) by apply P.
  set (f := fun i => a * i mod p).
  assert (R : forall x, In x (below p) -> In (f x) (below p)).
  { intros x H. apply in_below in H. apply in_below. unfold f. assert (a * x mod p < p) by now apply N.mod_lt.
    enough (a * x mod p <> 0) by lia. intro E. apply N.mod_divide in E; [|exact Z]. apply (prime_cancel p a x P D) in E.
    apply N.divide_pos_le in E; lia. }
  assert (I : forall x y, In x (below p) -> In y (below p) -> f x = f y -> x = y).
  { assert (W : forall x y, 0 < x < p -> 0 < y < p -> y <= x -> f x = f y -> x = y).
    { intros x y Hx Hy L E. unfold f in E. apply same_mod in E; [|exact Z|nia].
      rewrite <- N.mul_sub_distr_l in E. apply (prime_cancel p a _ P D) in E.
      destruct (N.eq_dec x y) as [e|N]; [exact e|]. apply N.divide_pos_le in E; lia. }
    intros x y Hx Hy E. apply in_below in Hx, Hy. destruct (N.le_ge_cases y x); [now apply W|]. symmetry. now apply W. }
  assert (U : NoDup (below p)).
  { unfold below. apply FinFun.Injective_map_NoDup; [intros i j H; lia|apply seq_NoDup]. }
  assert (U' : NoDup (map f (below p))).
  { clear R. induction (below p) as [|x l IH]; [constructor|]. cbn [map]. inversion U as [|? ? N U1]; subst. constructor.
    - intro H. apply in_map_iff in H. destruct H as (y & E & H). apply N. rewrite (I x y); auto; [now left|now right].
    - apply IH; [|exact U1]. intros y z Hy Hz. apply I; now right. }
  assert (Pm : Permutation (map f (below p)) (below p)).
  { apply NoDup_Permutation_bis; [exact U'|rewrite map_length; auto|]. intros x H. apply in_map_iff in H. destruct H as (y & <- & H). now apply R. }
  apply product_perm in Pm. pose proof (product_mod p a (below p) Z) as E. fold f in E. rewrite Pm in E.
  assert (Len : N.of_nat (List.length (below p)) = p - 1) by (unfold below; rewrite map_length, seq_length; lia).
  rewrite Len in E. symmetry in E.
  assert (G : 1 <= a ^ (p - 1)).
  { enough (a ^ (p - 1) <> 0) by lia. apply N.pow_nonzero. intros ->. apply D. apply N.divide_0_r. }
  apply same_mod in E; [|exact Z|nia]. apply same_mod; [exact Z|exact G|].
  replace (a ^ (p - 1) * product (below p) - product (below p)) with (product (below p) * (a ^ (p - 1) - 1)) in E.
  - apply (prime_cancel p _ _ P) in E; [exact E|]. apply product_coprime; [exact P|]. intros x H. now apply in_below.
  - rewrite N.mul_sub_distr_l. lia.
Qed.
(** With an exponent that is one more than a multiple. *)
Lemma fermat_more (p m k : N) : is_prime p -> m ^ (1 + k * (p - 1)) mod p = m mod p.
Proof.
  intro P. pose proof (prime_pos p P) as Z. rewrite N.pow_add_r, N.pow_1_r, (N.mul_comm k), N.pow_mul_r.
  destruct (N.eq_dec (m mod p) 0) as [E|N].
  - rewrite <- N.mul_mod_idemp_l, E, N.mul_0_l by exact Z. now apply N.mod_0_l.
  - assert (F : m ^ (p - 1) mod p = 1 mod p) by (apply fermat; [exact P|]; intro D; now apply N, divide_mod).
    assert (X : forall j, ((m ^ (p - 1)) ^ j) mod p = 1 mod p).
    { intro j. induction j as [|j IH] using N.peano_ind; [now rewrite N.pow_0_r|].
      rewrite N.pow_succ_r', <- N.mul_mod_idemp_l, F, <- N.mul_mod_idemp_r, IH by exact Z.
      rewrite N.mul_mod_idemp_l, N.mul_mod_idemp_r by exact Z. now rewrite N.mul_1_l. }
    rewrite <- N.mul_mod_idemp_r, X, N.mul_mod_idemp_r by exact Z. now rewrite N.mul_1_r.
Qed.

(** ** Products of distinct primes *)
Lemma primes_divide (ps : list N) (x : N) : NoDup ps -> Forall is_prime ps -> (forall p, In p ps -> (p | x)) -> (product ps | x).
Proof.
  revert x. induction ps as [|p ps IH]; intros x U F H; [apply N.divide_1_l|].
  inversion U as [|? ? N U']; inversion F as [|? ? Pp F']; subst. cbn [product fold_right]. fold (product ps).
  destruct (H p (or_introl eq_refl)) as [y ->].
  assert (D : (product ps | y)).
  { apply IH; [exact U'|exact F'|]. intros q Q. assert (Pq : is_prime q) by (rewrite Forall_forall in F'; now apply F').
    apply (prime_cancel q p y Pq).
    - intro D. destruct Pp as [_ Dp]. destruct (Dp q D) as [E|E]; [destruct Pq; lia|]. subst q. contradiction.
    - rewrite N.mul_comm. apply H. now right. }
  destruct D as [z ->]. exists z. ring.
Qed.
Lemma product_pos (ps : list N) : Forall is_prime ps -> product ps <> 0.
Proof.
  induction 1 as [|p ps P F IH]; [discriminate|]. cbn [product fold_right]. fold (product ps). pose proof (prime_pos p P). nia.
Qed.
(** Raising to both exponents changes nothing. *)
Lemma rsa_inverse (n e d m : N) : rsa_numbers n e d -> m ^ (e * d) mod n = m mod n.
Proof.
  intros (ps & U & F & En & X). subst n. change (fold_right N.mul 1 ps) with (product ps).
  pose proof (product_pos ps F) as Z.
  assert (G : ps = [] \/ m <= m ^ (e * d)).
  { destruct ps as [|p ps]; [now left|]. right. rewrite Forall_forall in X. destruct (X p (or_introl eq_refl)) as [k ->].
    rewrite N.pow_add_r, N.pow_1_r. destruct (N.eq_dec m 0) as [->|M]; [lia|].
    assert (m ^ (k * (p - 1)) <> 0) by now apply N.pow_nonzero. nia. }
  destruct G as [->|G]; [now rewrite !N.mod_1_r|].
  apply same_mod; [exact Z|exact G|]. apply primes_divide; [exact U|exact F|]. intros p I.
  rewrite Forall_forall in F, X. apply same_mod; [now apply prime_pos, F|exact G|]. destruct (X p I) as [k E].
  rewrite E. apply fermat_more. now apply F.
Qed.
