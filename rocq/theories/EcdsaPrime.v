(** The parameters of a curve by certificates: primes by Pocklington's criterion, the order of a
    point by the slopes of the lines met on the way. *)
From Verif Require Export EcdsaLaw.
From Verif Require Import StrFacts RsaNum RsaFacts.
Local Open Scope Z_scope.

(** ** Primes *)
Lemma same_pow (m a b e : Z) : 0 <= e -> same m a b -> same m (a ^ e) (b ^ e).
Proof.
  intros E S. revert e E. apply natlike_ind; [rewrite !Z.pow_0_r; apply same_refl|].
  intros e E IH. rewrite !Z.pow_succ_r by exact E. now apply same_mul.
Qed.
Lemma same_divide (r m a b : Z) : (r | m) -> same m a b -> same r a b.
Proof. intros D S. exact (Z.divide_trans _ _ _ D S). Qed.
Lemma fermat_z (r b : Z) : prime r -> ~ (r | b) -> 0 <= b -> same r (b ^ (r - 1)) 1.
Proof.
  intros R N B. pose proof (prime_ge_2 r R) as G. apply same_iff; [lia|].
  pose proof (fermat (Z.to_N r) (Z.to_N b) (prime_is r R)) as F.
  assert (N' : ~ (Z.to_N r | Z.to_N b)%N) by (intros [k H]; apply N; exists (Z.of_N k); lia).
  specialize (F N'). apply (f_equal Z.of_N) in F. rewrite !N2Z.inj_mod, N2Z.inj_pow, N2Z.inj_sub, !Z2N.id in F by lia. exact F.
Qed.
(** An element of order [q] modulo every factor. *)
Lemma order_divides (q b w m r : Z) : prime q -> 0 <= b -> same m (b ^ q) 1 -> same m ((b - 1) * w) 1 -> prime r -> (r | m) -> (q | r - 1).
Proof.
  intros Q B H W R D. pose proof (prime_ge_2 q Q) as Q2. pose proof (prime_ge_2 r R) as R2.
  apply (same_divide r) in H, W; try exact D.
  assert (N1 : ~ same r b 1).
  { intro S. assert (Z1 : same r ((b - 1) * w) 0).
    { replace 0 with ((1 - 1) * w) by ring. apply same_mul; [|apply same_refl]. apply (same_add r b 1 (-1) (-1)); [exact S|apply same_refl]. }
    pose proof (same_trans _ _ _ _ (same_sym _ _ _ W) Z1) as F. apply same_zero in F. apply Z.divide_1_r in F. lia. }
  assert (Nb : ~ (r | b)).
  { intro S. assert (F : same r (b ^ q) 0).
    { apply same_zero. replace q with (Z.succ (q - 1)) by lia. rewrite Z.pow_succ_r by lia. now apply Z.divide_mul_l. }
    pose proof (same_trans _ _ _ _ (same_sym _ _ _ H) F) as F'. apply same_zero in F'. apply Z.divide_1_r in F'. lia. }
  pose proof (fermat_z r b R Nb B) as F. destruct (Zdivide_dec q (r - 1)) as [K|K]; [exact K|exfalso]. apply N1.
  pose proof (prime_rel_prime q Q (r - 1) K) as RP. apply rel_prime_bezout in RP. destruct RP as [u v E].
  set (u' := u mod (r - 1) + (r - 1)). pose proof (Z.mod_pos_bound u (r - 1) ltac:(lia)) as Bu. pose proof (Z.div_mod u (r - 1) ltac:(lia)) as Eu.
  assert (Ev : exists v', 0 <= v' /\ u' * q = 1 + (r - 1) * v').
  { exists (q - v - q * (u / (r - 1))). assert (X : u' * q = 1 + (r - 1) * (q - v - q * (u / (r - 1)))).
    { unfold u'. replace (u mod (r - 1)) with (u - (r - 1) * (u / (r - 1))) by lia. nia. }
    split; [|exact X]. assert (B1 : 1 < u' * q).
    { apply Z.lt_le_trans with (1 * 2); [lia|]. apply Z.mul_le_mono_nonneg; unfold u'; lia. }
    rewrite X in B1. assert (0 < (r - 1) * (q - v - q * (u / (r - 1)))) by lia. nia. }
  destruct Ev as (v' & V & E'). assert (U : 0 <= u') by (unfold u'; lia). clearbody u'.
  assert (S1 : same r (b ^ (u' * q)) 1).
  { rewrite Z.mul_comm, Z.pow_mul_r by lia. pose proof (same_pow r _ _ u' U H) as X. now rewrite Z.pow_1_l in X by exact U. }
  rewrite E', Z.pow_add_r, Z.pow_1_r, Z.pow_mul_r in S1 by nia.
  assert (S2 : same r (b * (b ^ (r - 1)) ^ v') (b * 1)).
  { apply same_mul; [apply same_refl|]. pose proof (same_pow r _ _ v' V F) as X. now rewrite Z.pow_1_l in X by exact V. }
  rewrite Z.mul_1_r in S2. exact (same_trans _ _ _ _ (same_sym _ _ _ S2) S1).
Qed.
Lemma prime_factor (m : Z) : 1 < m -> exists r, prime r /\ (r | m).
Proof.
  intro M. assert (H : forall k, 0 <= k -> forall m, 1 < m <= k -> exists r, prime r /\ (r | m)).
  { apply (natlike_ind (fun k => forall m, 1 < m <= k -> exists r, prime r /\ (r | m))); [lia|]. intros k K IH x X.
    destruct (prime_dec x) as [P|P]; [exists x; split; [exact P|apply Z.divide_refl]|].
    apply not_prime_divide in P; [|lia]. destruct P as (d & D & E). destruct (IH d ltac:(lia)) as (r & R & E'). exists r. split; [exact R|]. now apply Z.divide_trans with d. }
  exact (H m ltac:(lia) m ltac:(lia)).
Qed.
Lemma small_factor (m : Z) : 1 < m -> ~ prime m -> exists r, prime r /\ (r | m) /\ r * r <= m.
Proof.
  intros M P. apply not_prime_divide in P; [|exact M]. destruct P as (d & D & [e E]).
  assert (X : exists x, 1 < x /\ (x | m) /\ x * x <= m).
  { destruct (Z_le_gt_dec d e) as [L|L].
    - exists d. split; [lia|]. split; [now exists e|nia].
    - exists e. split; [nia|]. split; [exists d; lia|nia]. }
  destruct X as (x & X & Dx & L). destruct (prime_factor x X) as (r & R & Dr). exists r. split; [exact R|]. split; [now apply Z.divide_trans with x|].
  apply Z.divide_pos_le in Dr; [|lia]. pose proof (prime_ge_2 r R). nia.
Qed.
(** Remainders with an estimate of the quotient: [e] is 2^(2k) / m. *)
Definition reduce (m k e x : Z) : Z :=
  let r := x - Z.shiftr (Z.shiftr x (k - 1) * e) (k + 1) * m in
  if (0 <=? r) && (r <? m) then r
  else let r' := r - m in if (0 <=? r') && (r' <? m) then r' else x mod m.
Lemma reduce_mod (m k e x : Z) : reduce m k e x = x mod m.
Proof.
  unfold reduce. set (q := Z.shiftr _ _). clearbody q. destruct ((0 <=? x - q * m) && (x - q * m <? m)) eqn:A.
  - apply andb_true_iff in A. apply (Z.mod_unique_pos x m q); [lia|ring].
  - destruct ((0 <=? x - q * m - m) && (x - q * m - m <? m)) eqn:B; [|reflexivity].
    apply andb_true_iff in B. apply (Z.mod_unique_pos x m (q + 1)); [lia|ring].
Qed.
Fixpoint power (md : Z -> Z) (b : Z) (e : positive) : Z :=
  match e with
  | xH => md b
  | xO e' => let t := power md b e' in md (t * t)
  | xI e' => let t := power md b e' in md (md (t * t) * b)
  end.
Lemma power_mod (m : Z) (md : Z -> Z) (b : Z) (e : positive) : m <> 0 -> (forall x, md x = x mod m) -> power md b e = b ^ Zpos e mod m.
Proof.
  intros M R. induction e as [e IH|e IH|]; cbn [power]; rewrite ?R, ?IH; try (now rewrite Z.pow_1_r).
  - rewrite Pos2Z.inj_xI. replace (2 * Z.pos e + 1) with (Z.pos e + Z.pos e + 1) by ring. rewrite !Z.pow_add_r, Z.pow_1_r by lia.
    now rewrite <- Z.mul_mod, Z.mul_mod_idemp_l by exact M.
  - rewrite Pos2Z.inj_xO. replace (2 * Z.pos e) with (Z.pos e + Z.pos e) by ring. rewrite Z.pow_add_r by lia. now rewrite <- Z.mul_mod by exact M.
Qed.
(** A step: the number, and for each of some primes an element of that order. *)
Definition product_z (qs : list Z) : Z := fold_right Z.mul 1 qs.
Fixpoint distinct (qs : list Z) : bool :=
  match qs with [] => true | q :: qs' => negb (existsb (Z.eqb q) qs') && distinct qs' end.
Definition prime_step (known : list Z) (m : Z) (cert : list (Z * Z * Z)) : bool :=
  let k := Z.log2 m + 1 in let md := reduce m k (2 ^ (2 * k) / m) in
  (1 <? m) && (m <=? product_z (map (fun t => fst (fst t)) cert) * product_z (map (fun t => fst (fst t)) cert))
  && distinct (map (fun t => fst (fst t)) cert)
  && forallb (fun t => let '(q, b, w) := t in existsb (Z.eqb q) known && (0 <=? b) && (power md b (Z.to_pos q) =? 1) && (md ((b - 1) * w) =? 1)) cert.
Lemma existsb_eqb (x : Z) (l : list Z) : existsb (Z.eqb x) l = true <-> In x l.
Proof.
  rewrite existsb_exists. split.
  - intros (y & I & E). apply Z.eqb_eq in E. now subst y.
  - intro I. exists x. split; [exact I|apply Z.eqb_refl].
Qed.
Lemma prime_of_product (q : Z) (qs : list Z) : prime q -> Forall prime qs -> (q | product_z qs) -> In q qs.
Proof.
  intros Q. induction qs as [|x qs IH]; intros F D.
  - cbn in D. apply Z.divide_1_r in D. pose proof (prime_ge_2 q Q). lia.
  - inversion F as [|? ? X F']; subst. cbn [product_z fold_right] in D. apply prime_mult in D; [|exact Q]. destruct D as [D|D].
    + left. symmetry. now apply prime_div_prime.
    + right. now apply IH.
Qed.
Lemma product_divides (qs : list Z) (x : Z) : Forall prime qs -> distinct qs = true -> (forall q, In q qs -> (q | x)) -> (product_z qs | x).
Proof.
  induction qs as [|q qs IH]; intros F N D; [apply Z.divide_1_l|]. inversion F as [|? ? Q F']; subst. cbn [distinct] in N. apply andb_true_iff in N. destruct N as [N N'].
  destruct (IH F' N' (fun y I => D y (or_intror I))) as [k E]. assert (Dq : (q | k * product_z qs)) by (rewrite <- E; apply D; now left).
  apply prime_mult in Dq; [|exact Q]. destruct Dq as [[j J]|Dq].
  - exists j. cbn [product_z fold_right]. fold (product_z qs). rewrite E, J. ring.
  - apply prime_of_product in Dq; [|exact Q|exact F']. apply existsb_eqb in Dq. rewrite Dq in N. discriminate.
Qed.
Lemma prime_step_prime (known : list Z) (m : Z) (cert : list (Z * Z * Z)) : Forall prime known -> prime_step known m cert = true -> prime m.
Proof.
  intros K H. unfold prime_step in H. set (md := reduce m _ _) in H. assert (Md : forall x, md x = x mod m) by (intro x; apply reduce_mod). clearbody md. set (qs := map (fun t => fst (fst t)) cert) in *. apply andb_true_iff in H. destruct H as [H C].
  apply andb_true_iff in H. destruct H as [H N]. apply andb_true_iff in H. destruct H as [M L]. apply Z.ltb_lt in M. apply Z.leb_le in L.
  destruct (prime_dec m) as [P|P]; [exact P|exfalso]. destruct (small_factor m M P) as (r & R & D & S). pose proof (prime_ge_2 r R) as R2.
  rewrite forallb_forall in C. rewrite Forall_forall in K.
  assert (C' : forall q, In q qs -> prime q /\ (q | r - 1)).
  { intros q I. apply in_map_iff in I. destruct I as ([[q' b] w] & E & I). cbn [fst] in E. subst q'. specialize (C _ I). cbv beta iota in C.
    apply andb_true_iff in C. destruct C as [C W]. apply andb_true_iff in C. destruct C as [C Pw]. apply andb_true_iff in C. destruct C as [Kn B].
    apply existsb_eqb, K in Kn. apply Z.leb_le in B. apply Z.eqb_eq in Pw, W. split; [exact Kn|]. pose proof (prime_ge_2 q Kn).
    apply (order_divides q b w m r Kn B); [| |exact R|exact D]; apply same_iff; try lia.
    + rewrite (power_mod m md b _ ltac:(lia) Md), Z2Pos.id in Pw by lia. rewrite Pw. now rewrite Z.mod_small by lia.
    + rewrite Md in W. rewrite W. now rewrite Z.mod_small by lia. }
  assert (Dp : (product_z qs | r - 1)) by (apply product_divides; [apply Forall_forall; intros q I; now apply C'|exact N|intros q I; now apply C']).
  apply Z.divide_pos_le in Dp; [|lia]. assert (0 <= product_z qs).
  { clear - C'. assert (F : forall q, In q qs -> 0 <= q) by (intros q I; destruct (C' q I) as [P _]; pose proof (prime_ge_2 q P); lia). clear C'.
    induction qs as [|q l IH]; [cbn; lia|]. cbn [product_z fold_right]. apply Z.mul_nonneg_nonneg; [apply F; now left|apply IH; intros x X; apply F; now right]. }
  nia.
Qed.
Fixpoint prime_steps (known : list Z) (steps : list (Z * list (Z * Z * Z))) : option (list Z) :=
  match steps with
  | [] => Some known
  | (m, cert) :: steps' => if prime_step known m cert then prime_steps (m :: known) steps' else None
  end.
Lemma prime_steps_prime (steps : list (Z * list (Z * Z * Z))) (known known' : list Z) :
  Forall prime known -> prime_steps known steps = Some known' -> Forall prime known'.
Proof.
  revert known. induction steps as [|[m cert] steps IH]; intros known K H; cbn [prime_steps] in H; [now injection H as <-|].
  destruct (prime_step known m cert) eqn:E; [|discriminate]. apply (IH (m :: known)); [|exact H]. constructor; [now apply (prime_step_prime known m cert)|exact K].
Qed.
Definition no_divisors (p : Z) : bool := forallb (fun d => negb (p mod Z.of_nat d =? 0)) (seq 2 (Z.to_nat p - 2)).
Lemma no_divisors_prime (p : Z) : no_divisors p = true -> 1 < p -> prime p.
Proof.
  intros H P. apply prime_alt. split; [exact P|]. intros d D X. apply Z.mod_divide in X; [|lia]. unfold no_divisors in H. rewrite forallb_forall in H.
  specialize (H (Z.to_nat d)). rewrite Z2Nat.id, X in H by lia. discriminate H. apply in_seq. lia.
Qed.
Lemma all_prime (ps : list Z) : forallb (fun p => (1 <? p) && no_divisors p) ps = true -> Forall prime ps.
Proof.
  intro H. rewrite forallb_forall in H. apply Forall_forall. intros p I. specialize (H p I). apply andb_true_iff in H. destruct H as [L H].
  apply no_divisors_prime; [exact H|lia].
Qed.
Lemma certified (small : list Z) (steps : list (Z * list (Z * Z * Z))) (p : Z) :
  forallb (fun p => (1 <? p) && no_divisors p) small = true ->
  match prime_steps small steps with Some known => existsb (Z.eqb p) known | None => false end = true -> prime p.
Proof.
  intros S H. apply all_prime in S. destruct (prime_steps small steps) as [known|] eqn:K; [|discriminate].
  pose proof (prime_steps_prime _ _ _ S K) as F. rewrite Forall_forall in F. apply F. now apply existsb_eqb.
Qed.

(** ** The order of the generator *)
(** The sum of two points, by a slope that is given. *)
Definition add_with (c : curve) (md : Z -> Z) (l : Z) (P Q : point) : option point :=
  match P, Q with
  | Some (x1, y1), Some (x2, y2) =>
      let third := let x3 := md (l * l - x1 - x2) in Some (Some (x3, md (l * (x1 - x3) - y1))) in
      if x1 =? x2 then
        if md (y1 + y2) =? 0 then Some None
        else if (y1 =? y2) && (md (l * (2 * y1) - (3 * x1 * x1 + cv_a c)) =? 0) then third else None
      else if md (l * (x2 - x1) - (y2 - y1)) =? 0 then third else None
  | _, _ => None
  end.
(** A chain of sums: two of the multiples found so far, and a slope. *)
Fixpoint chain (c : curve) (md : Z -> Z) (known : list (Z * point)) (steps : list (nat * nat * Z)) : option (Z * point) :=
  match steps with
  | [] => match known with kP :: _ => Some kP | [] => None end
  | (i, j, l) :: steps' =>
      match nth_error known i, nth_error known j with
      | Some (a, P), Some (b, Q) =>
          match add_with c md l P Q with Some R => chain c md ((a + b, R) :: known) steps' | None => None end
      | _, _ => None
      end
  end.
Definition order_chain (c : curve) (steps : list (nat * nat * Z)) : bool :=
  let k := Z.log2 (cv_p c) + 1 in let md := reduce (cv_p c) k (2 ^ (2 * k) / cv_p c) in
  match chain c md [(1, generator c)] steps with Some (k, None) => k =? cv_n c | _ => false end.
Section Walk.
  Context (c : curve) (Hp : prime (cv_p c)) (H3 : 3 < cv_p c) (Ns : ~ same (cv_p c) (4 * cv_a c * cv_a c * cv_a c + 27 * cv_b c * cv_b c) 0)
    (O : on_curve c (Some (cv_gx c, cv_gy c))).
  Local Notation p := (cv_p c).
  Local Notation G := (Some (cv_gx c, cv_gy c)).
  Context (md : Z -> Z) (Md : forall x, md x = x mod p).
  Lemma mod_same (x y : Z) : (x - y) mod p = 0 -> same p x y.
  Proof. intro H. apply Z.mod_divide; [lia|exact H]. Qed.
  Lemma add_with_sum (l : Z) (P Q R : point) : add_with c md l P Q = Some R -> sum_of c P Q R.
  Proof.
    destruct P as [[x1 y1]|]; [|discriminate]. destruct Q as [[x2 y2]|]; [|discriminate]. unfold add_with. rewrite !Md.
    destruct (third_on_line c H3 l x1 y1 x2) as (x3 & y3 & E3 & L). unfold third_point in E3. cbv zeta in E3 |- *. rewrite E3.
    destruct (Z.eqb_spec x1 x2) as [<-|N].
    - destruct (Z.eqb_spec ((y1 + y2) mod p) 0) as [E|N].
      + intros [= <-]. apply sum_opposite. apply mod_same. now rewrite Z.sub_0_r.
      + destruct (Z.eqb_spec y1 y2) as [<-|]; [|discriminate]. cbn [andb].
        destruct (Z.eqb_spec ((l * (2 * y1) - (3 * x1 * x1 + cv_a c)) mod p) 0) as [E|]; [|discriminate]. intros [= <-].
        apply (sum_tangent c x1 y1 l); [|now apply mod_same|exact L]. intro S. apply N. apply same_iff in S; [|lia]. now rewrite Z.mod_0_l in S by lia.
    - destruct (Z.eqb_spec ((l * (x2 - x1) - (y2 - y1)) mod p) 0) as [E|]; [|discriminate]. intros [= <-].
      apply (sum_chord c x1 y1 _ _ l); [exact N|now apply mod_same|exact L].
  Qed.
  Definition found (kP : Z * point) : Prop := 0 <= fst kP /\ multiple c G (Z.to_nat (fst kP)) (snd kP).
  Lemma chain_found (steps : list (nat * nat * Z)) : forall (known : list (Z * point)) (kP : Z * point),
    (forall x, In x known -> found x) -> chain c md known steps = Some kP -> found kP.
  Proof.
    induction steps as [|[[i j] l] steps IH]; intros known kP F H; cbn [chain] in H.
    - destruct known as [|x known]; [discriminate|]. injection H as <-. apply F. now left.
    - destruct (nth_error known i) as [[a P]|] eqn:Ei; [|discriminate]. destruct (nth_error known j) as [[b Q]|] eqn:Ej; [|discriminate].
      destruct (add_with c md l P Q) as [R|] eqn:E; [|discriminate]. apply add_with_sum in E. apply (IH _ _) in H; [exact H|]. intros x [<-|I]; [|now apply F].
      destruct (F _ (nth_error_In _ _ Ei)) as [A MP], (F _ (nth_error_In _ _ Ej)) as [B MQ]. cbn [fst snd] in *. split; [cbn [fst]; lia|].
      cbn [fst snd]. rewrite Z2Nat.inj_add by assumption. now apply (multiple_sum c Hp H3 Ns G P Q).
  Qed.
End Walk.
Lemma order_chain_multiple (c : curve) (steps : list (nat * nat * Z)) : prime (cv_p c) -> 3 < cv_p c ->
  ~ same (cv_p c) (4 * cv_a c * cv_a c * cv_a c + 27 * cv_b c * cv_b c) 0 -> on_curve c (Some (cv_gx c, cv_gy c)) ->
  order_chain c steps = true -> multiple c (Some (cv_gx c, cv_gy c)) (Z.to_nat (cv_n c)) None.
Proof.
  intros Hp H3 Ns O. unfold order_chain. cbv zeta. set (md := reduce _ _ _). assert (Md : forall x, md x = x mod cv_p c) by (intro x; apply reduce_mod).
  clearbody md. destruct (chain c md [(1, generator c)] steps) as [[k [[x y]|]]|] eqn:E; try discriminate. intro H. apply Z.eqb_eq in H. subst k.
  apply (chain_found c Hp H3 Ns O md Md) in E; [exact (proj2 E)|]. intros x [<-|[]]. split; [cbn; lia|]. cbn [fst snd].
  change (Z.to_nat 1) with 1%nat. apply (mult_S c _ 0 None); constructor.
Qed.
