(** ECDSA signatures: Ecdsa.v against SpecEcdsa.v. *)
From Verif Require Export EcdsaGroup.
From Verif Require Import StrFacts KeyFacts RsaFacts RsaMore.
Local Open Scope Z_scope.

Section Curve.
  Context (c : curve) (CG : curve_group c).
  Local Notation p := (cv_p c).
  Local Notation n := (cv_n c).
  Local Notation G := (Some (cv_gx c, cv_gy c)).
  Notation "P |+| Q" := (point_add c P Q) (at level 50, left associativity).
  Let N2 : 2 < n := cg_n2 c CG.
  Let Nn : prime n := cg_n c CG.
  Lemma g_in : in_group c G. Proof. exact (generator_in c CG). Qed.
  Let OG : on_curve c G := proj1 g_in.

  Lemma range_divide (x : Z) : 0 < x < n -> ~ (n | x).
  Proof. intros X D. apply Z.divide_pos_le in D; lia. Qed.
  Lemma scalar_iff (k : Z) : scalar_ok c k = true <-> 0 < k < n.
  Proof. unfold scalar_ok. lia. Qed.
  Lemma mod_nat (x : Z) : Z.of_nat (Z.to_nat (x mod n)) = x mod n.
  Proof. pose proof (Z.mod_pos_bound x n ltac:(lia)). lia. Qed.
  Lemma mod_lt (x : Z) : Z.of_nat (Z.to_nat (x mod n)) < n.
  Proof. rewrite mod_nat. apply Z.mod_pos_bound. lia. Qed.
  (** Division. *)
  Lemma divide_by (s x u : Z) : 0 < s < n -> (same n (u * s) x <-> same n u (x * inverse n s)).
  Proof.
    intro S. pose proof (inverse_same n s Nn (range_divide s S)) as I. split; intro H.
    - pose proof (same_mul n _ _ _ _ H (same_refl n (inverse n s))) as K. apply (same_trans n _ (u * s * inverse n s)); [|exact K].
      pose proof (same_mul n _ _ _ _ (same_refl n u) (same_sym _ _ _ I)) as J. rewrite Z.mul_1_r in J. now rewrite <- Z.mul_assoc.
    - pose proof (same_mul n _ _ _ _ H (same_refl n s)) as K. apply (same_trans n _ (x * inverse n s * s)); [exact K|].
      pose proof (same_mul n _ _ _ _ (same_refl n x) I) as J. rewrite Z.mul_1_r in J. replace (x * inverse n s * s) with (x * (s * inverse n s)) by ring. exact J.
  Qed.

  (** ** Verification *)
  Lemma check_iff (Q : point) (z r s : Z) : on_curve c Q -> (ecdsa_check c Q z r s = true <-> valid_pair c Q z r s).
  Proof.
    intro OQ. unfold ecdsa_check, valid_pair. rewrite !andb_true_iff, !scalar_iff. set (w := inverse n s). unfold generator.
    rewrite !mul_zmul by assumption.
    split.
    - intros [[R S] H]. split; [exact R|]. split; [exact S|]. pose proof (divide_by s) as D.
      destruct (zmul c (z * w) G |+| zmul c (r * w) Q) as [[x y]|] eqn:E; [|discriminate]. apply Z.eqb_eq in H.
      exists (Z.to_nat ((z * w) mod n)), (Z.to_nat ((r * w) mod n)), (zmul c (z * w) G), (zmul c (r * w) Q), x, y.
      split; [apply mod_lt|]. split; [apply mod_lt|]. rewrite !mod_nat.
      split; [apply (D z _ S), same_mod; lia|]. split; [apply (D r _ S), same_mod; lia|].
      split; [now apply multiple_iff|]. split; [now apply multiple_iff|].
      split; [apply sum_iff; auto using zmul_on|]. apply same_iff; [lia|]. rewrite H. symmetry. apply Z.mod_small. lia.
    - intros (R & S & u & v & U & V & x & y & Lu & Lv & Du & Dv & MU & MV & A & X). split; [now split|].
      apply (divide_by s _ _ S) in Du, Dv. fold w in Du, Dv.
      apply multiple_iff in MU, MV; try assumption. subst U V.
      rewrite <- (Nat2Z.id u), <- (Nat2Z.id v), !times_small in A by lia.
      rewrite (zmul_same c CG _ _ G Du), (zmul_same c CG _ _ Q Dv) in A. apply sum_iff in A; [|assumption|now apply zmul_on|now apply zmul_on].
      rewrite <- A. apply Z.eqb_eq. apply same_iff in X; [|lia]. rewrite X. apply Z.mod_small. lia.
  Qed.

  (** ** Signing *)
  Lemma try_iff (d z k r s : Z) : ecdsa_try c d z k = Some (r, s) <-> made_with c d z k r s.
  Proof.
    unfold ecdsa_try, made_with. destruct (scalar_ok c k) eqn:K.
    2:{ split; [discriminate|]. intros (H & _). apply scalar_iff in H. congruence. }
    apply scalar_iff in K. unfold generator. rewrite (mul_times c CG k G OG) by lia.
    split.
    - destruct (times c (Z.to_nat k) G) as [[x y]|] eqn:E; [|discriminate].
      destruct ((x mod n =? 0) || ((inverse n k * (z + x mod n * d)) mod n =? 0)) eqn:B; [discriminate|]. intro H. injection H as <- <-.
      apply orb_false_iff in B. rewrite !Z.eqb_neq in B. pose proof (Z.mod_pos_bound x n ltac:(lia)).
      pose proof (Z.mod_pos_bound (inverse n k * (z + x mod n * d)) n ltac:(lia)).
      split; [exact K|]. split; [lia|]. split; [lia|]. split.
      + exists x, y. split; [now apply multiple_iff|]. apply same_sym, same_mod. lia.
      + rewrite Z.mul_comm. apply (divide_by k _ _ K). rewrite (Z.mul_comm (inverse n k)). apply same_mod. lia.
    - intros (_ & R & S & (x & y & M & X) & D). apply multiple_iff in M; [|assumption|assumption]. rewrite <- M.
      assert (Er : x mod n = r) by (apply same_iff in X; [|lia]; rewrite X; apply Z.mod_small; lia). rewrite Er.
      rewrite Z.mul_comm in D. apply (divide_by k _ _ K) in D.
      assert (Es : (inverse n k * (z + r * d)) mod n = s).
      { apply same_iff in D; [|lia]. rewrite Z.mul_comm, <- D. apply Z.mod_small. lia. }
      rewrite Es. destruct ((r =? 0) || (s =? 0)) eqn:B; [|reflexivity]. lia.
  Qed.
  Lemma sign_iff (d z : Z) (ks : list Z) (r s : Z) : ecdsa_sign c d z ks = Some (r, s) <-> first_made c d z ks r s.
  Proof.
    unfold first_made. induction ks as [|k ks IH]; cbn [ecdsa_sign].
    { split; [discriminate|]. intros ([|? ?] & k & after & H & _); discriminate. }
    destruct (ecdsa_try c d z k) as [[r' s']|] eqn:E.
    - split.
      + intro H. injection H as -> ->. exists [], k, ks. split; [reflexivity|]. split; [now apply try_iff|]. now intros ? ? ? [].
      + intros ([|k' before] & k0 & after & H & M & F); cbn [app] in H; injection H as -> ->.
        * apply try_iff in M. congruence.
        * apply try_iff in E. elim (F k' r' s' (or_introl eq_refl) E).
    - rewrite IH. split.
      + intros (before & k0 & after & -> & M & F). exists (k :: before), k0, after. split; [reflexivity|]. split; [exact M|].
        intros k' r' s' [<-|I] X; [apply try_iff in X; congruence|now apply (F k' r' s')].
      + intros ([|k' before] & k0 & after & H & M & F); cbn [app] in H; injection H as -> ->.
        * apply try_iff in M. congruence.
        * exists before, k0, after. split; [reflexivity|]. split; [exact M|]. intros k1 r' s' I. apply F. now right.
  Qed.
  Lemma sign_some (d z : Z) (ks : list Z) (k r s : Z) : In k ks -> made_with c d z k r s -> exists r' s', ecdsa_sign c d z ks = Some (r', s').
  Proof.
    intros I M. induction ks as [|k' ks IH]; [contradiction|]. cbn [ecdsa_sign]. destruct (ecdsa_try c d z k') as [[r' s']|] eqn:E; [eauto|].
    destruct I as [->|I]; [apply try_iff in M; congruence|]. now apply IH.
  Qed.
  Lemma first_made_is (d z : Z) (ks : list Z) (r s : Z) : first_made c d z ks r s -> exists k, made_with c d z k r s.
  Proof. intros (b & k & a & _ & M & _). now exists k. Qed.

  (** ** Signatures of the key of [d] *)
  Section Key.
    Context (d : Z) (Q : point) (D : 0 < d < n) (MQ : multiple c G (Z.to_nat d) Q).
    Lemma q_zmul : Q = zmul c d G.
    Proof. apply multiple_iff in MQ; [|assumption|assumption]. rewrite MQ. apply times_small. lia. Qed.
    Lemma q_in : in_group c Q.
    Proof. exact (multiple_in c CG _ _ _ g_in MQ). Qed.
    Lemma sum_zmul (u v : Z) : zmul c u G |+| zmul c v Q = zmul c (u + v * d) G.
    Proof. rewrite zmul_add, zmul_mul, <- q_zmul by (try exact CG; exact g_in). reflexivity. Qed.
    (** A pair is valid if a multiple of the generator has the abscissa. *)
    Lemma valid_iff (z r s : Z) : valid_pair c Q z r s <-> 0 < r < n /\ 0 < s < n /\
      exists t x y, same n (t * s) (z + r * d) /\ zmul c t G = Some (x, y) /\ same n x r.
    Proof.
      rewrite <- check_iff by apply q_in. unfold ecdsa_check. rewrite !andb_true_iff, !scalar_iff. set (w := inverse n s). unfold generator.
      rewrite !mul_zmul by (try exact CG; try apply q_in; exact OG). rewrite sum_zmul. split.
      - intros [[R S] H]. split; [exact R|]. split; [exact S|]. destruct (zmul c (z * w + r * w * d) G) as [[x y]|] eqn:E; [|discriminate].
        exists (z * w + r * w * d), x, y. split; [|split; [exact E|]].
        + apply (divide_by s _ _ S). fold w. replace ((z + r * d) * w) with (z * w + r * w * d) by ring. apply same_refl.
        + apply Z.eqb_eq in H. apply same_iff; [lia|]. rewrite H. symmetry. apply Z.mod_small. lia.
      - intros (R & S & t & x & y & T & E & X). split; [now split|]. apply (divide_by s _ _ S) in T. fold w in T.
        replace ((z + r * d) * w) with (z * w + r * w * d) in T by ring. rewrite <- (zmul_same c CG _ _ G T), E. apply Z.eqb_eq.
        apply same_iff in X; [|lia]. rewrite X. apply Z.mod_small. lia.
    Qed.
    Lemma made_valid (z k r s : Z) : made_with c d z k r s -> valid_pair c Q z r s.
    Proof.
      intros (K & R & S & (x & y & M & X) & E). apply valid_iff. split; [exact R|]. split; [exact S|]. exists k, x, y.
      apply multiple_iff in M; [|assumption|assumption]. rewrite times_small in M by lia. auto.
    Qed.
    (** The second number may be negated. *)
    Lemma valid_other (z r s : Z) : valid_pair c Q z r s -> valid_pair c Q z r (n - s).
    Proof.
      rewrite !valid_iff. intros (R & S & t & x & y & T & E & X). split; [exact R|]. split; [lia|].
      exists (- t), x, ((- y) mod p). split; [|split; [|exact X]].
      - unfold same in *. replace (- t * (n - s) - (z + r * d)) with ((t * s - (z + r * d)) + (- t) * n) by ring.
        apply Z.divide_add_r; [exact T|]. apply Z.divide_factor_r.
      - rewrite zmul_opp by (try exact CG; exact g_in). now rewrite E.
    Qed.
    Lemma other_differs (s : Z) : 0 < s < n -> n - s <> s.
    Proof.
      intros S E. assert (D2 : (2 | n)) by (exists s; lia). apply prime_divisors in D2; [|exact Nn]. destruct D2 as [?|[?|[?|?]]]; lia.
    Qed.
    (** A pair that is valid for two numbers. *)
    Lemma valid_twice (z z' r s : Z) : valid_pair c Q z r s -> valid_pair c Q z' r s ->
      same n z z' \/ same n (z + z' + 2 * r * d) 0 \/ r + n < p.
    Proof.
      rewrite !valid_iff. intros (R & S & t & x & y & T & E & X) (_ & _ & t' & x' & y' & T' & E' & X').
      pose proof (zmul_on c CG t G OG) as O. pose proof (zmul_on c CG t' G OG) as O'. pose proof O as O1. pose proof O' as O1'. rewrite E in O1. rewrite E' in O1'.
      destruct (Z.lt_ge_cases (r + n) p) as [L|L]; [now right; right|].
      assert (NG : G <> None) by discriminate.
      assert (forall a, 0 <= a < p -> same n a r -> a = r) as U.
      { intros a A B. destruct B as [q B]. assert (q = 0) by nia. nia. }
      assert (x = r) as -> by (apply U; [apply O1|exact X]). assert (x' = r) as -> by (apply U; [apply O1'|exact X']).
      destruct (same_abscissa c CG r y y' O1 O1') as [<-|Op].
      - left. assert (Tt : same n t t') by (apply (zmul_inj c CG t t' G g_in NG); congruence).
        assert (same n (z + r * d) (z' + r * d)) as F.
        { eapply same_trans; [apply same_sym; exact T|]. eapply same_trans; [|exact T']. apply same_mul; [exact Tt|apply same_refl]. }
        unfold same in *. now replace (z - z') with (z + r * d - (z' + r * d)) by ring.
      - right. left.
        assert (Tt : (n | t + t')).
        { apply (zmul_none c CG (t + t') G g_in NG). rewrite zmul_add, E, E' by (try exact CG; exact g_in). symmetry.
          apply sum_iff; [exact CG|exact O1|exact O1'|]. now apply sum_opposite. }
        unfold same in *. destruct Tt as [q Tt], T as [q1 T], T' as [q2 T'].
        exists (q * s - q1 - q2). replace (z + z' + 2 * r * d - 0) with ((t + t') * s - (t * s - (z + r * d)) - (t' * s - (z' + r * d))) by ring. rewrite Tt, T, T'. ring.
    Qed.
  End Key.
  (** Two numbers at once: a private number can be found for which a pair is valid for both. *)
  Lemma both_valid (z z' k x y : Z) : 0 < k < n -> multiple c G (Z.to_nat k) (Some (x, y)) -> ~ same n x 0 -> ~ same n z z' -> ~ same n (z + z') 0 ->
    exists d Q r s, 0 < d < n /\ multiple c G (Z.to_nat d) Q /\ valid_pair c Q z r s /\ valid_pair c Q z' r s.
  Proof.
    intros K M X Nz No. set (r := x mod n). pose proof (Z.mod_pos_bound x n ltac:(lia)) as Br. fold r in Br.
    assert (R : 0 < r < n).
    { enough (r <> 0) by lia. intro E. apply X. apply same_iff; [lia|]. unfold r in E. now rewrite E, Z.mod_0_l by lia. }
    assert (D2 : ~ (n | 2 * r)).
    { intro H. apply prime_split in H; [|exact Nn]. destruct H as [H|H]; [apply Z.divide_pos_le in H; lia|now apply (range_divide r)]. }
    set (d := (- (z + z') * inverse n (2 * r)) mod n).
    assert (Hd : same n (2 * r * d) (- (z + z'))).
    { pose proof (inverse_same n (2 * r) Nn D2) as I. unfold d.
      eapply same_trans; [apply same_mul; [apply same_refl|apply same_mod; lia]|].
      replace (2 * r * (- (z + z') * inverse n (2 * r))) with (- (z + z') * (2 * r * inverse n (2 * r))) by ring.
      rewrite <- (Z.mul_1_r (- (z + z'))) at 2. apply same_mul; [apply same_refl|exact I]. }
    pose proof (Z.mod_pos_bound (- (z + z') * inverse n (2 * r)) n ltac:(lia)) as Bd. fold d in Bd.
    assert (Dr : 0 < d < n).
    { enough (d <> 0) by lia. intro E. rewrite E, Z.mul_0_r in Hd. apply No. apply same_sym, same_opp in Hd. now rewrite Z.opp_involutive in Hd. }
    set (s := ((z + r * d) * inverse n k) mod n). pose proof (Z.mod_pos_bound ((z + r * d) * inverse n k) n ltac:(lia)) as Bs. fold s in Bs.
    assert (Hs : same n (k * s) (z + r * d)) by (rewrite Z.mul_comm; apply (divide_by k _ _ K); apply same_mod; lia).
    assert (S : 0 < s < n).
    { enough (s <> 0) by lia. intro E. rewrite E, Z.mul_0_r in Hs. apply Nz.
      destruct Hs as [a Ha], Hd as [b Hb]. exists (- 2 * a - b). lia. }
    exists d, (times c (Z.to_nat d) G), r, s. split; [exact Dr|].
    assert (MQ : multiple c G (Z.to_nat d) (times c (Z.to_nat d) G)) by (now apply multiple_iff). split; [exact MQ|].
    apply multiple_iff in M; [|assumption|assumption]. rewrite times_small in M by lia.
    assert (Xr : same n x r) by (apply same_sym, same_mod; lia).
    split; apply (valid_iff d _ Dr MQ).
    - split; [exact R|]. split; [exact S|]. exists k, x, y. auto.
    - split; [exact R|]. split; [exact S|]. exists (- k), x, ((- y) mod p). split; [|split; [|exact Xr]].
      + destruct Hs as [a Ha], Hd as [b Hb]. exists (- a - b). lia.
      + rewrite zmul_opp by (try exact CG; exact g_in). now rewrite <- M.
  Qed.
End Curve.
