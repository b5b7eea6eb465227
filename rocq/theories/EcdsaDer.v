(** The bytes of ECDSA signatures and keys. *)
From Verif Require Export EcdsaFacts.
From Verif Require Import StrFacts KeyFacts ShaFacts RsaFacts RsaMore.
Local Open Scope N_scope.

(** ** INTEGERs *)
Lemma der_integer_unique (s t : str) (x : N) : der_integer s x -> der_integer t x -> s = t.
Proof.
  intros (P & E & B & M) (_ & E' & B' & M').
  assert (Len : forall a b : str, 0 < x -> x < 128 * 256 ^ (N.of_nat (List.length a) - 1) -> (List.length b = 1%nat \/ 128 * 256 ^ (N.of_nat (List.length b) - 2) <= x) ->
    (1 <= List.length a)%nat -> (List.length b <= List.length a)%nat).
  { intros a b _ Ba [L|L] A1; [lia|]. destruct (Nat.le_gt_cases (List.length b) (List.length a)) as [K|K]; [exact K|].
    assert (256 ^ (N.of_nat (List.length a) - 1) <= 256 ^ (N.of_nat (List.length b) - 2)) by (apply N.pow_le_mono_r; lia). lia. }
  assert (Ne : forall a : str, big_endian a = x -> (1 <= List.length a)%nat) by (intros [|? ?] H; [cbn in H; lia|cbn; lia]).
  apply big_endian_inj; [|congruence]. pose proof (Len s t P B M' (Ne s E)). pose proof (Len t s P B' M (Ne t E')). lia.
Qed.
Lemma integer_der (x : N) : 0 < x -> der_integer (integer_bytes x) x.
Proof.
  intro P. unfold integer_bytes. pose proof (length_bytes_of x ltac:(lia)) as B. set (k := byte_length (N.size x)) in *. destruct B as (K & L & U).
  pose proof (big_endian_of k x U) as V. pose proof (be_bytes_length k x) as Lk.
  destruct (be_bytes k x) as [|c s]; [cbn in Lk; lia|]. cbn [List.length] in Lk.
  assert (Q : 256 ^ (N.of_nat k - 1) = 256 ^ N.of_nat (List.length s)) by (f_equal; lia). rewrite Q in L.
  pose proof (big_endian_lt s) as Ls. pose proof V as V'. cbn [big_endian] in V'. set (q := 256 ^ N.of_nat (List.length s)) in *.
  assert (Qz : q <> 0) by (apply N.pow_nonzero; lia). pose proof (code_lt c) as Cc.
  destruct (N.leb_spec 128 (code c)) as [H|H].
  - split; [exact P|]. split; [cbn [big_endian]; cbn [big_endian] in V; rewrite <- V; change (code zero) with 0; reflexivity|].
    cbn [List.length]. replace (N.of_nat (S (S (List.length s))) - 1) with (N.succ (N.of_nat (List.length s))) by lia.
    replace (N.of_nat (S (S (List.length s))) - 2) with (N.of_nat (List.length s)) by lia. rewrite N.pow_succ_r'. fold q. split; [nia|]. right. nia.
  - split; [exact P|]. split; [exact V|]. cbn [List.length]. replace (N.of_nat (S (List.length s)) - 1) with (N.of_nat (List.length s)) by lia. fold q.
    split; [nia|]. destruct s as [|c' s']; [now left|right]. cbn [List.length] in *.
    replace (N.of_nat (S (S (List.length s'))) - 2) with (N.of_nat (List.length s')) by lia.
    assert (Eq : q = 256 * 256 ^ N.of_nat (List.length s')) by (unfold q; rewrite Nat2N.inj_succ; apply N.pow_succ_r'). nia.
Qed.
Lemma der_integer_length (s : str) (x : N) (k : nat) : der_integer s x -> x < 256 ^ N.of_nat k -> (List.length s <= k + 1)%nat.
Proof.
  intros (P & _ & _ & [L|L]) U; [lia|]. destruct (Nat.le_gt_cases (List.length s) (k + 1)) as [K|K]; [exact K|].
  assert (256 ^ N.of_nat k <= 256 ^ (N.of_nat (List.length s) - 2)) by (apply N.pow_le_mono_r; lia). lia.
Qed.

(** ** Signatures *)
Lemma numbers_iff (tag : str) (r s : Z) : signature_numbers tag = Some (r, s) <-> pair_in_der r s tag.
Proof.
  unfold signature_numbers, pair_in_der, tag_sequence, tag_integer. split.
  - destruct (der_tlv (ascii_of_N 48) tag) as [[body [|? ?]]|] eqn:E1; try discriminate. apply tlv_whole in E1; [|lia].
    destruct (der_tlv (ascii_of_N 2) body) as [[rb rest]|] eqn:E2; [|discriminate]. apply der_tlv_iff in E2; [|lia]. destruct E2 as (x & T2 & ->).
    destruct (der_tlv (ascii_of_N 2) rest) as [[sb [|? ?]]|] eqn:E3; try discriminate. apply tlv_whole in E3; [|lia].
    destruct (der_positive rb) as [r'|] eqn:P1; [|discriminate]. destruct (der_positive sb) as [s'|] eqn:P2; [|discriminate].
    apply der_positive_iff in P1, P2. intro H. injection H as <- <-. rewrite !N2Z.id. pose proof (proj1 P1). pose proof (proj1 P2).
    split; [lia|]. split; [lia|]. now exists rb, sb, x, rest.
  - intros (R & S & rb & sb & x & y & P1 & P2 & T1 & T2 & T3). apply tlv_whole in T3; [|lia]. rewrite T3.
    rewrite (proj2 (der_tlv_iff rb y (x ++ y) 2 ltac:(lia))) by eauto. apply tlv_whole in T2; [|lia]. rewrite T2.
    apply der_positive_iff in P1, P2. rewrite P1, P2. now rewrite !Z2N.id by lia.
Qed.
Lemma der_unique_pair (r s r' s' : Z) (tag : str) : pair_in_der r s tag -> pair_in_der r' s' tag -> r = r' /\ s = s'.
Proof. intros H K. apply numbers_iff in H, K. rewrite H in K. now injection K. Qed.
Definition two_256 : N := 256 ^ N.of_nat 32.
Lemma two_256_eq : Z.of_N two_256 = (2 ^ 256)%Z. Proof. reflexivity. Qed.
(** One text for a pair. *)
Lemma der_is (r s : Z) (tag : str) : (0 < r < 2 ^ 256)%Z -> (0 < s < 2 ^ 256)%Z -> (pair_in_der r s tag <-> tag = signature_bytes r s).
Proof.
  intros R S. rewrite <- two_256_eq in R, S. pose proof (integer_der (Z.to_N r) ltac:(lia)) as Ir. pose proof (integer_der (Z.to_N s) ltac:(lia)) as Is.
  assert (Lr : (List.length (integer_bytes (Z.to_N r)) <= 33)%nat) by (apply (der_integer_length _ _ 32 Ir); fold two_256; lia).
  assert (Ls : (List.length (integer_bytes (Z.to_N s)) <= 33)%nat) by (apply (der_integer_length _ _ 32 Is); fold two_256; lia).
  assert (Tx : forall a v x, (List.length v <= 70)%nat -> (tagged a v x <-> x = der_short (ascii_of_N a) v)).
  { intros a v x L. apply tagged_short. lia. }
  unfold pair_in_der, signature_bytes, tag_sequence, tag_integer. split.
  - intros (_ & _ & rb & sb & x & y & P1 & P2 & T1 & T2 & T3).
    rewrite (der_integer_unique _ _ _ P1 Ir) in *. rewrite (der_integer_unique _ _ _ P2 Is) in *.
    apply Tx in T1; [|lia]. apply Tx in T2; [|lia]. subst x y. apply Tx in T3; [exact T3|].
    unfold der_short. cbn [app List.length]. rewrite app_length. cbn [List.length]. lia.
  - intros ->. split; [lia|]. split; [lia|]. eexists _, _, _, _. split; [exact Ir|]. split; [exact Is|]. split; [apply Tx; [lia|reflexivity]|].
    split; [apply Tx; [lia|reflexivity]|]. apply Tx; [|reflexivity]. unfold der_short. cbn [app List.length]. rewrite app_length. cbn [List.length]. lia.
Qed.
(** The form of the draft is another. *)
Lemma der_not_draft (r s : Z) (tag : str) : pair_in_der r s tag -> ~ pair_in_draft r s tag.
Proof.
  intros D (rb & sb & Lr & Ls & Er & Es & ->).
  pose proof D as (R & Sp & _). pose proof (big_endian_lt rb) as Ur. pose proof (big_endian_lt sb) as Us. rewrite Lr in Ur. rewrite Ls in Us. fold two_256 in Ur, Us.
  assert (Br : (0 < r < 2 ^ 256)%Z) by (rewrite <- two_256_eq; lia). assert (Bs : (0 < s < 2 ^ 256)%Z) by (rewrite <- two_256_eq; lia).
  apply (der_is r s _ Br Bs) in D. unfold signature_bytes, der_short in D. set (ri := integer_bytes (Z.to_N r)) in *. set (si := integer_bytes (Z.to_N s)) in *.
  pose proof (f_equal (@List.length ascii) D) as L. rewrite app_length, Lr, Ls in L. cbn [app List.length] in L. rewrite app_length in L. cbn [List.length] in L.
  (* the first number has 32 bytes, as its first byte is 48 *)
  assert (Lri : List.length ri = 32%nat).
  { destruct rb as [|c rb]; [discriminate|]. cbn [app] in D. injection D as Ec _. cbn [List.length] in Lr. injection Lr as Lr.
    assert (I : der_integer (c :: rb) (Z.to_N r)).
    { rewrite <- Er, N2Z.id. pose proof (big_endian_lt rb) as U. rewrite Lr in U.
      assert (Q : 256 ^ N.of_nat 31 = 256 * 256 ^ 30) by (rewrite <- N.pow_succ_r'; reflexivity).
      assert (Ev : big_endian (c :: rb) = 48 * 256 ^ N.of_nat 31 + big_endian rb) by (cbn [big_endian]; rewrite Lr; subst c; reflexivity).
      assert (Z30 : 256 ^ 30 <> 0) by (apply N.pow_nonzero; lia).
      unfold der_integer. cbn [List.length]. rewrite Lr. change (N.of_nat 32 - 1) with (N.of_nat 31). change (N.of_nat 32 - 2) with 30.
      rewrite Ev, Q in *. set (q := 256 ^ 30) in *. clearbody q. split; [lia|]. split; [reflexivity|]. split; [lia|]. right. lia. }
    assert (E : ri = c :: rb) by (apply (der_integer_unique _ _ (Z.to_N r)); [apply integer_der; lia|exact I]). rewrite E. cbn [List.length]. now rewrite Lr. }
  assert (Lsi : List.length si = 26%nat) by lia.
  (* the second starts with four bytes and the tag 2, yet is below 256^26 *)
  pose proof (integer_der (Z.to_N s) ltac:(lia)) as (_ & Vs & _). fold si in Vs. pose proof (big_endian_lt si) as Usi. rewrite Vs, Lsi in Usi.
  assert (Esb : sb = skipn 28 ri ++ tag_integer :: ascii_of_N (N.of_nat (List.length si)) :: si).
  { apply (f_equal (skipn 32)) in D. rewrite skipn_app, Lr, Nat.sub_diag, (skipn_all2 rb) in D by lia. cbn [app] in D.
    assert (K : forall a b e f (l : str), skipn 32 (a :: b :: e :: f :: l) = skipn 28 l) by reflexivity. rewrite K, skipn_app, Lri in D. exact D. }
  assert (Big : 2 * 256 ^ 27 <= big_endian sb).
  { rewrite Esb. assert (A : forall a b, big_endian b <= big_endian (a ++ b)).
    { induction a as [|e a IH]; intro b; [cbn [app]; lia|]. cbn [app big_endian]. specialize (IH b). lia. }
    eapply N.le_trans; [|apply A]. cbn [big_endian List.length]. rewrite Lsi. change (code tag_integer) with 2. change (N.of_nat 27) with 27.
    apply N.le_add_r. }
  assert (256 ^ 27 = 256 * 256 ^ 26) by (rewrite <- N.pow_succ_r'; reflexivity). change (N.of_nat 26) with 26 in Usi.
  assert (Z.to_N s = big_endian sb) by lia. lia.
Qed.

(** ** Keys *)
Lemma on_curveb_iff (c : curve) (x y : Z) : (0 < cv_p c)%Z -> (0 <= x)%Z -> (0 <= y)%Z -> (on_curveb c x y = true <-> on_curve c (Some (x, y))).
Proof.
  intros P X Y. unfold on_curveb, on_curve. rewrite !andb_true_iff, !Z.ltb_lt, Z.eqb_eq.
  rewrite <- (same_iff (cv_p c) (y * y) (x * x * x + cv_a c * x + cv_b c)) by lia. unfold same. intuition lia.
Qed.
Lemma key_iff (c : curve) (key : str) (Q : point) : (0 < cv_p c)%Z -> (key_point c key = Some Q <-> public_point c key Q).
Proof.
  intro P. unfold key_point, public_point. split.
  - destruct key as [|t xy]; [discriminate|]. rewrite !be_value_spec.
    destruct ((code t =? 4) && Nat.eqb (List.length xy) 64 && on_curveb c _ _) eqn:E; [|discriminate]. intro H. injection H as <-.
    apply andb_true_iff in E. destruct E as [E O]. apply andb_true_iff in E. destruct E as [T L]. apply N.eqb_eq in T. apply Nat.eqb_eq in L.
    apply on_curveb_iff in O; [|lia|lia|lia].
    exists (firstn 32 xy), (skipn 32 xy), (Z.of_N (big_endian (firstn 32 xy))), (Z.of_N (big_endian (skipn 32 xy))).
    split; [rewrite firstn_skipn; unfold byte; now rewrite <- T, of_code|]. rewrite firstn_length, skipn_length, L. auto 10.
  - intros (xb & yb & x & y & -> & Lx & Ly & Ex & Ey & -> & O). rewrite !be_value_spec.
    rewrite firstn_app, Lx, Nat.sub_diag, firstn_all2, firstn_O, app_nil_r by lia. rewrite skipn_app, Lx, Nat.sub_diag, skipn_all2, skipn_O by lia. cbn [app].
    rewrite Ex, Ey. rewrite (proj2 (on_curveb_iff c x y P ltac:(lia) ltac:(lia)) O), app_length, Lx, Ly. reflexivity.
Qed.
