(** Sha2.v computes the functions of SpecSha.v. *)
From Verif Require Export SpecSha ShaFacts.
Local Open Scope N_scope.

(** ** Words by their bits *)
Lemma word_lt (w : nat) (f : nat -> bool) : word w f < 2 ^ N.of_nat w.
Proof.
  induction w as [|w IH]; [reflexivity|]. cbn [word]. rewrite Nat2N.inj_succ, N.pow_succ_r'. destruct (f w); lia.
Qed.
Lemma bit_add_pow (k : nat) (x : N) (b : bool) (i : nat) : x < 2 ^ N.of_nat k ->
  bit (x + (if b then 2 ^ N.of_nat k else 0)) i = if Nat.eqb i k then b else bit x i.
Proof.
  intro L. unfold bit. destruct b.
  - replace (x + 2 ^ N.of_nat k) with (N.lor x (2 ^ N.of_nat k)).
    + rewrite N.lor_spec, N.pow2_bits_eqb. destruct (Nat.eqb_spec i k) as [->|D].
      * now rewrite N.eqb_refl, orb_true_r.
      * replace (N.of_nat k =? N.of_nat i) with false by (symmetry; apply N.eqb_neq; lia). apply orb_false_r.
    + rewrite <- N.lxor_lor, <- N.add_nocarry_lxor; [reflexivity| |];
        apply N.bits_inj; intro j; rewrite N.land_spec, N.pow2_bits_eqb, N.bits_0; destruct (N.eqb_spec (N.of_nat k) j) as [<-|];
        rewrite ?andb_false_r; auto; destruct (N.eq_dec x 0) as [->|Z]; [now rewrite N.bits_0| |now rewrite N.bits_0|];
        rewrite N.bits_above_log2; auto; apply N.log2_lt_pow2; lia.
  - rewrite N.add_0_r. destruct (Nat.eqb_spec i k) as [->|D]; [|reflexivity].
    destruct (N.eq_dec x 0) as [->|Z]; [apply N.bits_0|]. apply N.bits_above_log2. apply N.log2_lt_pow2; lia.
Qed.
Lemma bit_word (w : nat) (f : nat -> bool) (i : nat) : bit (word w f) i = Nat.ltb i w && f i.
Proof.
  induction w as [|w IH]; [unfold bit; cbn [word]; now rewrite N.bits_0|].
  cbn [word]. rewrite bit_add_pow by apply word_lt. destruct (Nat.eqb_spec i w) as [->|D].
  - destruct (Nat.ltb_spec w (Datatypes.S w)); [reflexivity|lia].
  - rewrite IH. destruct (Nat.ltb_spec i w), (Nat.ltb_spec i (Datatypes.S w)); try reflexivity; lia.
Qed.
Lemma bit_above (w : nat) (x : N) (i : nat) : x < 2 ^ N.of_nat w -> (w <= i)%nat -> bit x i = false.
Proof.
  intros L H. unfold bit. destruct (N.eq_dec x 0) as [->|Z]; [apply N.bits_0|]. apply N.bits_above_log2.
  assert (N.log2 x < N.of_nat w) by (apply N.log2_lt_pow2; lia). lia.
Qed.
Lemma bits_eq (x y : N) : (forall i, bit x i = bit y i) -> x = y.
Proof. intro H. apply N.bits_inj. intro i. specialize (H (N.to_nat i)). unfold bit in H. now rewrite N2Nat.id in H. Qed.
Lemma is_word (w : nat) (x : N) (f : nat -> bool) : x < 2 ^ N.of_nat w -> (forall i, (i < w)%nat -> bit x i = f i) -> x = word w f.
Proof.
  intros L H. apply bits_eq. intro i. rewrite bit_word. destruct (Nat.ltb_spec i w); [now apply H|]. now apply (bit_above w).
Qed.

(** ** The model of a variant *)
Definition trip (t : nat * nat * nat) : N * N * N := let '(a, b, c) := t in (N.of_nat a, N.of_nat b, N.of_nat c).
Definition amounts (w : nat) (t : nat * nat * nat) : Prop := let '(a, b, c) := t in (a < w /\ b < w /\ c < w)%nat.
Record fits (p : sha_params) (v : variant) : Prop := Fits {
  ft_w : sh_w p = N.of_nat (8 * v_bytes v);
  ft_bytes : (0 < v_bytes v)%nat;
  ft_k : List.length (sh_k p) = v_rounds v;
  ft_rounds : (16 <= v_rounds v)%nat;
  ft_h0 : List.length (sh_h0 p) = 8%nat;
  ft_h0_lt : Forall (fun x => x < 2 ^ sh_w p) (sh_h0 p);
  ft_S0 : sh_S0 p = trip (v_Sigma0 v); ft_S1 : sh_S1 p = trip (v_Sigma1 v);
  ft_s0 : sh_s0 p = trip (v_sigma0 v); ft_s1 : sh_s1 p = trip (v_sigma1 v);
  ft_A0 : amounts (8 * v_bytes v) (v_Sigma0 v); ft_A1 : amounts (8 * v_bytes v) (v_Sigma1 v);
  ft_a0 : amounts (8 * v_bytes v) (v_sigma0 v); ft_a1 : amounts (8 * v_bytes v) (v_sigma1 v)
}.
Lemma fits_256 : fits sha256_params SHA_256.
Proof.
  constructor; [reflexivity|apply Nat.ltb_lt; reflexivity|reflexivity|apply Nat.leb_le; reflexivity|reflexivity| |reflexivity..| | | |];
    [|repeat split; apply Nat.ltb_lt; reflexivity..].
  apply Forall_forall. intros x I. apply N.ltb_lt. revert x I. apply forallb_forall. vm_compute. reflexivity.
Qed.
Lemma fits_512 : fits sha512_params SHA_512.
Proof.
  constructor; [reflexivity|apply Nat.ltb_lt; reflexivity|reflexivity|apply Nat.leb_le; reflexivity|reflexivity| |reflexivity..| | | |];
    [|repeat split; apply Nat.ltb_lt; reflexivity..].
  apply Forall_forall. intros x I. apply N.ltb_lt. revert x I. apply forallb_forall. vm_compute. reflexivity.
Qed.

Section Model.
  Variable (p : sha_params) (v : variant).
  Hypothesis F : fits p v.
  Let w : nat := (8 * v_bytes v)%nat.
  Lemma w_eq : sh_w p = N.of_nat w.
  Proof. apply F. Qed.
  Lemma w_pos : (0 < w)%nat.
  Proof. pose proof (ft_bytes _ _ F). unfold w. lia. Qed.
  Definition fit (x : N) : Prop := x < 2 ^ N.of_nat w.

  Lemma wadd_sum (a b : N) : wadd p a b = sum v a b.
  Proof. unfold wadd, sum. now rewrite w_eq. Qed.
  Lemma sum_fit (a b : N) : fit (sum v a b).
  Proof. unfold fit, sum. apply N.mod_lt. apply N.pow_nonzero. lia. Qed.

  Lemma bit_shiftr (x : N) (n i : nat) : bit (N.shiftr x (N.of_nat n)) i = bit x (i + n).
  Proof. unfold bit. rewrite N.shiftr_spec'. f_equal. lia. Qed.
  Lemma bit_shiftl (x : N) (n i : nat) : bit (N.shiftl x (N.of_nat n)) i = negb (Nat.ltb i n) && bit x (i - n).
  Proof.
    unfold bit. destruct (Nat.ltb_spec i n).
    - rewrite N.shiftl_spec_low by lia. reflexivity.
    - rewrite N.shiftl_spec_high' by lia. cbn [negb andb]. f_equal. lia.
  Qed.
  Lemma bit_mod (x : N) (i : nat) : bit (x mod 2 ^ N.of_nat w) i = Nat.ltb i w && bit x i.
  Proof.
    unfold bit. destruct (Nat.ltb_spec i w).
    - rewrite N.mod_pow2_bits_low by lia. reflexivity.
    - rewrite N.mod_pow2_bits_high by lia. reflexivity.
  Qed.
  Lemma bit_wrotr (n : nat) (x : N) (i : nat) : (n < w)%nat -> fit x ->
    bit (wrotr p (N.of_nat n) x) i = Nat.ltb i w && rotated w n x i.
  Proof.
    intros L X. unfold wrotr. rewrite w_eq. replace (N.of_nat w - N.of_nat n) with (N.of_nat (w - n)) by lia.
    unfold rotated. unfold bit at 1. rewrite N.lor_spec.
    fold (bit (N.shiftr x (N.of_nat n)) i). fold (bit (N.shiftl x (N.of_nat (w - n)) mod 2 ^ N.of_nat w) i).
    rewrite bit_shiftr, bit_mod, bit_shiftl.
    destruct (Nat.ltb_spec i w).
    - cbn [andb]. destruct (Nat.ltb_spec i (w - n)); cbn [negb andb].
      + rewrite orb_false_r, Nat.mod_small by lia. reflexivity.
      + rewrite (bit_above w) by (auto; lia). cbn [orb].
        replace (i + n)%nat with (i + n - w + 1 * w)%nat by lia. rewrite Nat.mod_add by lia.
        rewrite Nat.mod_small by lia. f_equal. lia.
    - cbn [andb]. rewrite orb_false_r. apply (bit_above w); auto. lia.
  Qed.
  Lemma big_sigma_eq (t : nat * nat * nat) (x : N) : amounts w t -> fit x -> big_sigma p (trip t) x = Sigma v t x.
  Proof.
    destruct t as [[a b] c]. intros (A & B & C) X. cbn [big_sigma trip Sigma]. apply bits_eq. intro i. rewrite bit_word.
    unfold bit at 1. rewrite !N.lxor_spec. fold (bit (wrotr p (N.of_nat a) x) i). fold (bit (wrotr p (N.of_nat b) x) i).
    fold (bit (wrotr p (N.of_nat c) x) i). rewrite !bit_wrotr by auto. fold w. now destruct (Nat.ltb i w).
  Qed.
  Lemma small_sigma_eq (t : nat * nat * nat) (x : N) : amounts w t -> fit x -> small_sigma p (trip t) x = sigma v t x.
  Proof.
    destruct t as [[a b] c]. intros (A & B & C) X. cbn [small_sigma trip sigma]. apply bits_eq. intro i. rewrite bit_word.
    unfold bit at 1. rewrite !N.lxor_spec. fold (bit (wrotr p (N.of_nat a) x) i). fold (bit (wrotr p (N.of_nat b) x) i).
    fold (bit (N.shiftr x (N.of_nat c)) i). rewrite !bit_wrotr, bit_shiftr by auto. fold w. unfold shifted.
    destruct (Nat.ltb_spec i w); cbn [andb].
    - destruct (Nat.ltb_spec (i + c) w); cbn [andb]; [reflexivity|]. rewrite (bit_above w x (i + c)) by auto. reflexivity.
    - rewrite (bit_above w x (i + c)) by (auto; lia). reflexivity.
  Qed.
  Lemma bit_ones (i : nat) : bit (2 ^ N.of_nat w - 1) i = Nat.ltb i w.
  Proof.
    unfold bit. replace (2 ^ N.of_nat w - 1) with (N.ones (N.of_nat w)) by (rewrite N.ones_equiv; lia).
    destruct (Nat.ltb_spec i w); [apply N.ones_spec_low; lia|apply N.ones_spec_high; lia].
  Qed.
  Lemma ch_eq (x y z : N) : fit x -> fit y -> fit z -> ch p x y z = Ch v x y z.
  Proof.
    intros X Y Z. unfold ch, Ch, wnot. rewrite w_eq. apply bits_eq. intro i. rewrite bit_word. fold w.
    unfold bit at 1. rewrite N.lxor_spec, !N.land_spec, N.lxor_spec. fold (bit x i). fold (bit y i). fold (bit z i).
    fold (bit (2 ^ N.of_nat w - 1) i). rewrite bit_ones. destruct (Nat.ltb_spec i w); cbn [andb].
    - now destruct (bit x i), (bit y i), (bit z i).
    - rewrite (bit_above w y i), (bit_above w z i) by auto. now rewrite !andb_false_r.
  Qed.
  Lemma maj_eq (x y z : N) : fit x -> fit y -> fit z -> maj x y z = Maj v x y z.
  Proof.
    intros X Y Z. unfold maj, Maj. apply bits_eq. intro i. rewrite bit_word. fold w.
    unfold bit at 1. rewrite !N.lxor_spec, !N.land_spec. fold (bit x i). fold (bit y i). fold (bit z i).
    destruct (Nat.ltb_spec i w); cbn [andb].
    - now destruct (bit x i), (bit y i), (bit z i).
    - rewrite (bit_above w y i), (bit_above w z i) by auto. now rewrite !andb_false_r.
  Qed.

  (** ** The schedule *)
  Definition entry (W : nat -> N) (t : nat) : N :=
    sum v (sum v (sigma v (v_sigma1 v) (W (t - 2)%nat)) (W (t - 7)%nat))
          (sum v (sigma v (v_sigma0 v) (W (t - 15)%nat)) (W (t - 16)%nat)).
  Definition good (M : nat -> N) (ws : list N) : Prop :=
    Forall fit ws /\ (16 <= List.length ws)%nat
    /\ forall t, (t < List.length ws)%nat ->
         nth t (rev ws) 0 = if Nat.ltb t 16 then M t else entry (fun i => nth i (rev ws) 0) t.
  Lemma entry_ext (W W' : nat -> N) (t : nat) : (16 <= t)%nat -> (forall i, (i < t)%nat -> W i = W' i) -> entry W t = entry W' t.
  Proof. intros L H. unfold entry. now rewrite !H by lia. Qed.
  Lemma nth_fit (ws : list N) (i : nat) : Forall fit ws -> fit (nth i ws 0).
  Proof.
    intro G. destruct (Nat.lt_ge_cases i (List.length ws)) as [L|L].
    - rewrite Forall_forall in G. apply G. now apply nth_In.
    - rewrite nth_overflow by exact L. unfold fit. assert (2 ^ N.of_nat w <> 0) by (apply N.pow_nonzero; lia). lia.
  Qed.
  Lemma good_step (M : nat -> N) (ws : list N) : good M ws ->
    good M (wadd p (wadd p (small_sigma p (sh_s1 p) (nth 1 ws 0)) (nth 6 ws 0))
                   (wadd p (small_sigma p (sh_s0 p) (nth 14 ws 0)) (nth 15 ws 0)) :: ws).
  Proof.
    intros (G & L & E). rewrite (ft_s1 _ _ F), (ft_s0 _ _ F). rewrite !small_sigma_eq by (try apply nth_fit; try apply F; auto).
    rewrite !wadd_sum. set (x := sum v _ _). split; [constructor; [apply sum_fit|exact G]|]. cbn [List.length]. split; [lia|].
    intros t T. cbn [rev].
    assert (P : forall i, (i < List.length ws)%nat -> nth i (rev ws ++ [x]) 0 = nth i (rev ws) 0).
    { intros i I. apply app_nth1. now rewrite rev_length. }
    destruct (Nat.eq_dec t (List.length ws)) as [->|D].
    - rewrite app_nth2 by (rewrite rev_length; lia). rewrite rev_length, Nat.sub_diag. cbn [nth].
      destruct (Nat.ltb_spec (List.length ws) 16); [lia|].
      assert (R : forall k, (k < List.length ws)%nat -> nth (List.length ws - Datatypes.S k) (rev ws ++ [x]) 0 = nth k ws 0).
      { intros k K. rewrite P by lia. rewrite rev_nth by lia. f_equal. lia. }
      unfold entry. replace (List.length ws - 2)%nat with (List.length ws - Datatypes.S 1)%nat by lia. rewrite R by lia.
      replace (List.length ws - 7)%nat with (List.length ws - Datatypes.S 6)%nat by lia. rewrite R by lia.
      replace (List.length ws - 15)%nat with (List.length ws - Datatypes.S 14)%nat by lia. rewrite R by lia.
      replace (List.length ws - 16)%nat with (List.length ws - Datatypes.S 15)%nat by lia. rewrite R by lia. reflexivity.
    - rewrite P by lia. rewrite E by lia. destruct (Nat.ltb_spec t 16); [reflexivity|]. apply entry_ext; [lia|].
      intros i I. symmetry. apply P. lia.
  Qed.
  Lemma good_sched (M : nat -> N) (n : nat) : forall ws, good M ws ->
    good M (sched p n ws) /\ List.length (sched p n ws) = (n + List.length ws)%nat.
  Proof.
    induction n as [|n IH]; intros ws G; [split; [exact G|reflexivity]|]. cbn [sched].
    destruct (IH _ (good_step M ws G)) as [A B]. split; [exact A|]. rewrite B. cbn [List.length]. lia.
  Qed.

  (** ** The rounds *)
  Notation state := (N * N * N * N * N * N * N * N)%type.
  Definition var (s : state) (j : nat) : N := nth j (list_of s) 0.
  Definition fit_state (s : state) : Prop := Forall fit (list_of s).
  Lemma round_ok (K W : nat -> N) (t : nat) (s : state) : fit_state s ->
    round_step v K W t (var s) (var (round p s (K t, W t))) /\ fit_state (round p s (K t, W t)).
  Proof.
    destruct s as [[[[[[[a b] c] d] e] f] g] h]. intro G. unfold fit_state in *. cbn [list_of] in G.
    repeat match goal with H : Forall _ (_ :: _) |- _ => apply Forall_cons_iff in H; destruct H end.
    unfold round_step, T1, T2, var, round. cbn [list_of nth fst snd].
    rewrite (ft_S0 _ _ F), (ft_S1 _ _ F). rewrite !big_sigma_eq by (try apply F; auto). rewrite ch_eq, maj_eq by auto.
    rewrite !wadd_sum. split; [auto 10|]. repeat constructor; auto using sum_fit.
  Qed.
  Fixpoint run_rounds (l : list (N * N)) (s : state) : state :=
    match l with [] => s | kw :: l' => run_rounds l' (round p s kw) end.
  Lemma fold_rounds (l : list (N * N)) : forall s, fold_left (round p) l s = run_rounds l s.
  Proof. induction l as [|x l IH]; intro s; cbn; auto. Qed.
  Lemma firstn_snoc {A} (d : A) (l : list A) (t : nat) : (t < List.length l)%nat -> firstn (Datatypes.S t) l = firstn t l ++ [nth t l d].
  Proof.
    revert t. induction l as [|x l IH]; intros t H; cbn [List.length] in H; [lia|]. destruct t as [|t]; [reflexivity|].
    cbn [firstn nth app]. f_equal. apply IH. lia.
  Qed.
  Lemma rounds_fit (l : list (N * N)) : forall s, fit_state s -> fit_state (fold_left (round p) l s).
  Proof.
    induction l as [|[k x] l IH]; intros s G; [exact G|]. cbn [fold_left]. apply IH.
    apply (round_ok (fun _ => k) (fun _ => x) 0 s G).
  Qed.
  Lemma rounds_ok (ks ws : list N) (s0 : state) : fit_state s0 -> List.length ks = List.length ws ->
    forall t, (t < List.length ks)%nat ->
      round_step v (fun i => nth i ks 0) (fun i => nth i ws 0) t
        (var (fold_left (round p) (firstn t (combine ks ws)) s0))
        (var (fold_left (round p) (firstn (Datatypes.S t) (combine ks ws)) s0)).
  Proof.
    intros G L t T. rewrite (firstn_snoc (0, 0)) by (rewrite combine_length; lia). rewrite fold_left_app. cbn [fold_left].
    rewrite combine_nth by exact L. apply (round_ok (fun i => nth i ks 0) (fun i => nth i ws 0)). now apply rounds_fit.
  Qed.

  (** ** One block *)
  Lemma list8 (h : list N) : List.length h = 8%nat -> exists a b c d e f g i, h = [a; b; c; d; e; f; g; i].
  Proof.
    intro L. do 8 (destruct h as [|? h]; [discriminate|]). destruct h; [|discriminate]. repeat eexists.
  Qed.
  Lemma compress_ok (h blk : list N) : List.length h = 8%nat -> List.length blk = 16%nat -> Forall fit h -> Forall fit blk ->
    block_step v (fun t => nth t (sh_k p) 0) (fun t => nth t blk 0) (fun j => nth j h 0) (fun j => nth j (compress p h blk) 0)
    /\ Forall fit (compress p h blk).
  Proof.
    intros Lh Lb Fh Fb. unfold compress. set (n := (List.length (sh_k p) - 16)%nat).
    assert (G0 : good (fun t => nth t blk 0) (rev blk)).
    { split; [now apply Forall_rev|]. rewrite rev_length, rev_involutive, Lb. split; [lia|]. intros t T.
      destruct (Nat.ltb_spec t 16); [reflexivity|lia]. }
    destruct (good_sched _ n _ G0) as [G L]. rewrite rev_length, Lb in L.
    set (ws := rev (sched p n (rev blk))) in *.
    assert (Lw : List.length ws = v_rounds v).
    { unfold ws. rewrite rev_length, L. unfold n. rewrite (ft_k _ _ F). pose proof (ft_rounds _ _ F). lia. }
    destruct (list8 h Lh) as (a & b & c & d & e & f & g & i & ->).
    set (h := [a; b; c; d; e; f; g; i]) in *. cbn [st_of].
    set (s0 := st_of h).
    assert (F0 : fit_state s0) by exact Fh.
    assert (LK : List.length (sh_k p) = List.length ws) by (rewrite Lw; apply F).
    assert (FN : firstn (v_rounds v) (combine (sh_k p) ws) = combine (sh_k p) ws).
    { apply firstn_all2. rewrite combine_length, LK, Lw. lia. }
    assert (OUT : forall j, (j < 8)%nat ->
      nth j (map (fun ab => wadd p (fst ab) (snd ab)) (combine h (list_of (fold_left (round p) (combine (sh_k p) ws) s0)))) 0
      = sum v (var (fold_left (round p) (combine (sh_k p) ws) s0) j) (nth j h 0)).
    { intros j J. unfold var. destruct (fold_left (round p) (combine (sh_k p) ws) s0) as [[[[[[[a' b'] c'] d'] e'] f'] g'] i'].
      unfold h. cbn [list_of combine map fst snd].
      do 8 (destruct j as [|j]; [cbn [nth]; rewrite wadd_sum; unfold sum; f_equal; lia|]). lia. }
    split.
    - exists (fun t => nth t ws 0), (fun t j => var (fold_left (round p) (firstn t (combine (sh_k p) ws)) s0) j).
      split; [|split; [|split]].
      + intros t T. destruct G as (_ & _ & E). apply (E t). rewrite L. unfold n. rewrite (ft_k _ _ F). pose proof (ft_rounds _ _ F). lia.
      + intros j J. cbn [firstn fold_left]. unfold s0, var, h. cbn [st_of nth list_of]. reflexivity.
      + intros t T. apply rounds_ok; auto. rewrite (ft_k _ _ F). exact T.
      + intros j J. rewrite OUT by exact J. now rewrite FN.
    - apply Forall_forall. intros x I. apply in_map_iff in I. destruct I as ([y z] & <- & _). rewrite wadd_sum. apply sum_fit.
  Qed.
End Model.

(** ** Bytes and words *)
Lemma skipn_skipn {A} (x y : nat) (l : list A) : skipn x (skipn y l) = skipn (x + y) l.
Proof.
  revert l. induction y as [|y IH]; intro l; [now rewrite Nat.add_0_r|]. rewrite Nat.add_succ_r.
  destruct l as [|a l]; [now rewrite !skipn_nil|]. cbn [skipn]. apply IH.
Qed.
Lemma value_lt (s : str) : value s < 256 ^ N.of_nat (List.length s).
Proof.
  induction s as [|c s IH]; [reflexivity|]. cbn [value List.length]. rewrite Nat2N.inj_succ, N.pow_succ_r'.
  pose proof (code_lt c). nia.
Qed.
Lemma value_inj (a b : str) : List.length a = List.length b -> value a = value b -> a = b.
Proof.
  revert b. induction a as [|x a IH]; intros [|y b] L V; try discriminate; [reflexivity|].
  cbn [value List.length] in *. assert (L' : List.length a = List.length b) by lia. rewrite <- L' in V.
  pose proof (value_lt a) as A. pose proof (value_lt b) as B. rewrite <- L' in B. set (q := 256 ^ N.of_nat (List.length a)) in *.
  assert (C : code x = code y) by nia. rewrite C in V. assert (V' : value a = value b) by lia.
  f_equal; [now apply code_inj|auto].
Qed.
Lemma word_of_value (s : str) : word_of s = value s.
Proof.
  unfold word_of. assert (H : forall a, fold_left (fun a c => a * 256 + code c) s a = a * 256 ^ N.of_nat (List.length s) + value s).
  { induction s as [|c s IH]; intro a; cbn [fold_left value List.length]; [cbn; lia|].
    rewrite IH, Nat2N.inj_succ, N.pow_succ_r'. lia. }
  rewrite H. lia.
Qed.
Lemma value_be_bytes (n : nat) (x : N) : value (be_bytes n x) = x mod 256 ^ N.of_nat n.
Proof.
  induction n as [|n IH]; [now rewrite N.mod_1_r|]. cbn [be_bytes value]. rewrite be_bytes_length, IH, Nat2N.inj_succ, N.pow_succ_r'.
  rewrite code_of by (apply N.mod_lt; lia). set (q := 256 ^ N.of_nat n). assert (q <> 0) by (apply N.pow_nonzero; lia).
  rewrite (N.mul_comm 256 q), N.mod_mul_r by lia. lia.
Qed.
Lemma pow_256 (n : nat) : 256 ^ N.of_nat n = 2 ^ N.of_nat (8 * n).
Proof. change 256 with (2 ^ 8). rewrite <- N.pow_mul_r. f_equal. lia. Qed.

Section Bytes.
  Variable (p : sha_params) (v : variant).
  Hypothesis F : fits p v.
  Lemma wbytes_eq : wbytes p = v_bytes v.
  Proof. unfold wbytes. rewrite (ft_w _ _ F). replace (N.of_nat (8 * v_bytes v)) with (N.of_nat (v_bytes v) * 8) by lia.
    rewrite N.div_mul by lia. apply Nat2N.id. Qed.
  Lemma block_eq : block_bytes p = (16 * v_bytes v)%nat.
  Proof. unfold block_bytes. now rewrite wbytes_eq. Qed.

  Lemma words_length (n : nat) : forall bs, List.length (words p n bs) = n.
  Proof. induction n as [|n IH]; intro bs; cbn [words List.length]; auto. Qed.
  Lemma words_nth (n : nat) : forall (bs : str) (t : nat), (t < n)%nat -> nth t (words p n bs) 0 = nth_word v bs t.
  Proof.
    induction n as [|n IH]; intros bs t T; [lia|]. cbn [words]. destruct t as [|t]; cbn [nth].
    - rewrite word_of_value, wbytes_eq. reflexivity.
    - rewrite IH by lia. unfold nth_word. rewrite wbytes_eq, skipn_skipn. do 3 f_equal. lia.
  Qed.
  Lemma nth_word_fit (bs : str) (t : nat) : fit v (nth_word v bs t).
  Proof.
    unfold fit, nth_word. eapply N.lt_le_trans; [apply value_lt|]. rewrite pow_256. apply N.pow_le_mono_r; [lia|].
    pose proof (firstn_le_length (v_bytes v) (skipn (t * v_bytes v) bs)). lia.
  Qed.
  Lemma words_fit (n : nat) (bs : str) : Forall (fit v) (words p n bs).
  Proof.
    apply Forall_forall. intros x I. apply (In_nth _ _ 0) in I. destruct I as (t & T & <-). rewrite words_length in T.
    rewrite words_nth by exact T. apply nth_word_fit.
  Qed.
  Lemma nth_word_block (bs : str) (i t : nat) : (t < 16)%nat ->
    nth_word v (firstn (block_bytes p) (skipn (i * block_bytes p) bs)) t = nth_word v bs (i * 16 + t).
  Proof.
    intro T. unfold nth_word. rewrite block_eq. rewrite skipn_firstn_comm, firstn_firstn, skipn_skipn.
    replace (Nat.min (v_bytes v) (16 * v_bytes v - t * v_bytes v)) with (v_bytes v) by nia.
    do 3 f_equal. lia.
  Qed.

  (** ** All blocks *)
  Lemma blocks_snoc (n : nat) : forall (bs : str) (h : list N),
    blocks p (Datatypes.S n) bs h = compress p (blocks p n bs h) (words p 16 (firstn (block_bytes p) (skipn (n * block_bytes p) bs))).
  Proof.
    induction n as [|n IH]; intros bs h; [reflexivity|].
    change (blocks p (Datatypes.S (Datatypes.S n)) bs h)
      with (blocks p (Datatypes.S n) (skipn (block_bytes p) bs) (compress p h (words p 16 (firstn (block_bytes p) bs)))).
    rewrite IH. cbn [blocks]. rewrite skipn_skipn. do 4 f_equal. lia.
  Qed.
  Lemma blocks_fit (n : nat) (bs : str) : Forall (fit v) (blocks p n bs (sh_h0 p)).
  Proof.
    induction n as [|n IH].
    - cbn [blocks]. pose proof (ft_h0_lt _ _ F) as H. rewrite (ft_w _ _ F) in H. exact H.
    - rewrite blocks_snoc. refine (proj2 (compress_ok p v F _ _ _ (words_length _ _) IH (words_fit _ _))).
      apply blocks_length, F.
  Qed.
  Lemma block_step_ext (K M M' H H' : nat -> N) : (16 <= v_rounds v)%nat -> (forall t, (t < 16)%nat -> M t = M' t) ->
    block_step v K M H H' -> block_step v K M' H H'.
  Proof.
    intros R E (W & s & A & B). exists W, s. split; [|exact B]. intros t T. rewrite A by exact T.
    destruct (Nat.ltb_spec t 16); [now apply E|reflexivity].
  Qed.
  Lemma blocks_ok (bs : str) (i : nat) :
    block_step v (fun t => nth t (sh_k p) 0) (fun t => nth_word v bs (i * 16 + t))
      (fun j => nth j (blocks p i bs (sh_h0 p)) 0) (fun j => nth j (blocks p (Datatypes.S i) bs (sh_h0 p)) 0).
  Proof.
    rewrite blocks_snoc. eapply block_step_ext; [apply F| |].
    2: { apply (compress_ok p v F); [apply blocks_length, F|apply words_length|apply blocks_fit|apply words_fit]. }
    intros t T. cbv beta. rewrite words_nth by exact T. now apply nth_word_block.
  Qed.

  (** ** Padding *)
  Lemma pad_ok (m : str) : 8 * N.of_nat (List.length m) < 256 ^ N.of_nat (2 * v_bytes v) ->
    padded v m (pad p m) (Nat.div (List.length (pad p m)) (block_bytes p)).
  Proof.
    intro L. pose proof (ft_bytes _ _ F) as B.
    exists (N.to_nat (pad_zeros p (N.of_nat (List.length m)))), (be_bytes (2 * v_bytes v) (8 * N.of_nat (List.length m))).
    split; [unfold pad; rewrite wbytes_eq; reflexivity|]. rewrite be_bytes_length, value_be_bytes, N.mod_small by exact L. split; [reflexivity|]. split; [reflexivity|].
    unfold pad_zeros. rewrite block_eq, wbytes_eq. set (b := N.of_nat (16 * v_bytes v)). assert (b <> 0) by (unfold b; lia).
    split.
    - assert (D : (List.length (pad p m) mod (16 * v_bytes v) = 0)%nat).
      { unfold pad. rewrite wbytes_eq, !app_length. cbn [List.length]. rewrite app_length, repeat_length, be_bytes_length.
        unfold pad_zeros. rewrite block_eq, wbytes_eq. fold b. set (x := N.of_nat (List.length m) + 1 + N.of_nat (2 * v_bytes v)).
        apply Nat2N.inj. rewrite Nat2N.inj_mod. fold b.
        replace (N.of_nat (List.length m + Datatypes.S (N.to_nat ((b - x mod b) mod b) + 2 * v_bytes v)))
          with (x + (b - x mod b) mod b) by (unfold x; lia).
        rewrite N.add_mod_idemp_r by lia. pose proof (N.mod_lt x b ltac:(lia)). pose proof (N.div_mod x b ltac:(lia)).
        replace (x + (b - x mod b)) with ((x / b + 1) * b) by nia. apply N.mod_mul. lia. }
      pose proof (Nat.div_mod (List.length (pad p m)) (16 * v_bytes v) ltac:(lia)) as E. rewrite D in E.
      set (q := Nat.div (List.length (pad p m)) (16 * v_bytes v)) in *. rewrite E at 1. lia.
    - pose proof (N.mod_lt (b - (N.of_nat (List.length m) + 1 + N.of_nat (2 * v_bytes v)) mod b) b ltac:(lia)). lia.
  Qed.

  Lemma nth_word_flat (l : list N) : forall j, Forall (fit v) l -> (j < List.length l)%nat ->
    nth_word v (flat_map (be_bytes (wbytes p)) l) j = nth j l 0.
  Proof.
    rewrite wbytes_eq. induction l as [|x l IH]; intros j G J; cbn [List.length] in J; [lia|]. apply Forall_cons_iff in G. destruct G as [X G].
    unfold nth_word. cbn [flat_map]. destruct j as [|j].
    - cbn [Nat.mul skipn nth]. rewrite firstn_app, be_bytes_length, Nat.sub_diag, firstn_O, app_nil_r.
      rewrite firstn_all2 by (rewrite be_bytes_length; lia). rewrite value_be_bytes, pow_256. now apply N.mod_small.
    - replace (Datatypes.S j * v_bytes v)%nat with (v_bytes v + j * v_bytes v)%nat by lia.
      rewrite skipn_app, be_bytes_length. rewrite skipn_all2 by (rewrite be_bytes_length; lia).
      replace (v_bytes v + j * v_bytes v - v_bytes v)%nat with (j * v_bytes v)%nat by lia. cbn [app nth]. apply IH; [exact G|lia].
  Qed.

  Hypothesis Ks : constants v (fun t => nth t (sh_k p) 0).
  Hypothesis Hs : initial v (fun j => nth j (sh_h0 p) 0).
  Lemma sha_digest (m : str) : 8 * N.of_nat (List.length m) < 256 ^ N.of_nat (2 * v_bytes v) -> digest v m (sha p m).
  Proof.
    intro L. set (n := Nat.div (List.length (pad p m)) (block_bytes p)).
    exists (pad p m), n, (fun t => nth t (sh_k p) 0), (fun i j => nth j (blocks p i (pad p m) (sh_h0 p)) 0).
    split; [now apply pad_ok|]. split; [exact Ks|]. split; [exact Hs|]. split; [intros i _; apply blocks_ok|].
    split; [rewrite sha_length by apply F; now rewrite wbytes_eq|].
    intros j J. unfold sha. fold n. apply nth_word_flat; [apply blocks_fit|]. rewrite blocks_length by apply F. exact J.
  Qed.
End Bytes.

(** ** The standard determines the digest *)
Lemma root_unique (k : N) (q w : nat) (x y : N) : k <> 0 -> root_bits k q w x -> root_bits k q w y -> x = y.
Proof.
  intros K (r & (A & B) & ->) (s & (C & D) & ->). f_equal.
  assert (forall a b c, a ^ k <= c -> c < (b + 1) ^ k -> a <= b).
  { intros a b c P Q. destruct (N.le_gt_cases a b); [assumption|]. assert (b + 1 <= a) by lia.
    pose proof (N.pow_le_mono_l (b + 1) a k ltac:(lia)). lia. }
  apply N.le_antisymm; eauto.
Qed.
Section Unique.
  Variable v : variant.
  Hypothesis B : (0 < v_bytes v)%nat.
  Lemma padded_unique (m p p' : str) (n n' : nat) : padded v m p n -> padded v m p' n' -> p = p' /\ n = n'.
  Proof.
    intros (z & l & -> & L & V & T & Z) (z' & l' & -> & L' & V' & T' & Z').
    assert (l = l') by (apply value_inj; congruence). subst l'.
    rewrite !app_length, repeat_length in T, T'. cbn [List.length] in T, T'.
    assert (n = n').
    { destruct (Nat.lt_trichotomy n n') as [H|[H|H]]; [|exact H|]; nia. }
    subst n'. assert (z = z') by lia. subst z'. auto.
  Qed.
  Lemma schedule_unique (M M' W W' : nat -> N) : (forall t, (t < 16)%nat -> M t = M' t) -> schedule v M W -> schedule v M' W' ->
    forall t, (t < v_rounds v)%nat -> W t = W' t.
  Proof.
    intros E A C t. induction t as [t IH] using (well_founded_induction Wf_nat.lt_wf). intro T. rewrite A, C by exact T.
    destruct (Nat.ltb_spec t 16); [now apply E|]. now rewrite !IH by lia.
  Qed.
  Lemma round_unique (K K' W W' : nat -> N) (t : nat) (s s' u u' : nat -> N) : K t = K' t -> W t = W' t ->
    (forall j, (j < 8)%nat -> s j = u j) -> round_step v K W t s s' -> round_step v K' W' t u u' -> forall j, (j < 8)%nat -> s' j = u' j.
  Proof.
    intros EK EW E (A7 & A6 & A5 & A4 & A3 & A2 & A1 & A0) (C7 & C6 & C5 & C4 & C3 & C2 & C1 & C0) j J.
    assert (T : T1 v K W t s = T1 v K' W' t u) by (unfold T1; now rewrite !E, EK, EW by lia).
    assert (T' : T2 v s = T2 v u) by (unfold T2; now rewrite !E by lia).
    do 8 (destruct j as [|j]; [congruence || (rewrite ?A0, ?A1, ?A2, ?A3, ?A4, ?A5, ?A6, ?A7, ?C0, ?C1, ?C2, ?C3, ?C4, ?C5, ?C6, ?C7;
      rewrite ?T, ?T'; now rewrite ?E by lia)|]). lia.
  Qed.
  Lemma block_unique (K K' M M' H H' G G' : nat -> N) : (forall t, (t < v_rounds v)%nat -> K t = K' t) ->
    (forall t, (t < 16)%nat -> M t = M' t) -> (forall j, (j < 8)%nat -> H j = G j) ->
    block_step v K M H H' -> block_step v K' M' G G' -> forall j, (j < 8)%nat -> H' j = G' j.
  Proof.
    intros EK EM E (W & s & A & A0 & A1 & A2) (W' & u & C & C0 & C1 & C2) j J.
    assert (R : forall t, (t <= v_rounds v)%nat -> forall j, (j < 8)%nat -> s t j = u t j).
    { induction t as [|t IH]; intros T i I; [rewrite A0, C0 by exact I; now apply E|].
      eapply (round_unique K K' W W' t (s t) _ (u t)); [apply EK; lia|apply (schedule_unique M M' W W'); auto; lia| |apply A1; lia|apply C1; lia|exact I].
      apply IH. lia. }
    rewrite A2, C2 by exact J. rewrite E by exact J. now rewrite R.
  Qed.
  Lemma words_determine (n : nat) : forall a b : str, List.length a = (n * v_bytes v)%nat -> List.length b = (n * v_bytes v)%nat ->
    (forall j, (j < n)%nat -> nth_word v a j = nth_word v b j) -> a = b.
  Proof.
    induction n as [|n IH]; intros a b La Lb E.
    - destruct a, b; try discriminate; reflexivity.
    - rewrite <- (firstn_skipn (v_bytes v) a), <- (firstn_skipn (v_bytes v) b). f_equal.
      + apply value_inj; [rewrite !firstn_length; nia|]. apply (E 0%nat). lia.
      + apply IH; [rewrite skipn_length; nia|rewrite skipn_length; nia|]. intros j J. specialize (E (Datatypes.S j) ltac:(lia)).
        unfold nth_word in *. rewrite !skipn_skipn. cbn [Nat.mul] in E. rewrite (Nat.add_comm (j * v_bytes v)). exact E.
  Qed.
  Lemma digest_unique (m d d' : str) : digest v m d -> digest v m d' -> d = d'.
  Proof.
    intros (p & n & K & H & P & A & I & S & L & D) (p' & n' & K' & H' & P' & A' & I' & S' & L' & D').
    destruct (padded_unique _ _ _ _ _ P P') as [<- <-].
    assert (EK : forall t, (t < v_rounds v)%nat -> K t = K' t) by (intros t T; apply (root_unique 3 _ _ _ _ ltac:(lia) (A t T) (A' t T))).
    assert (R : forall i, (i <= n)%nat -> forall j, (j < 8)%nat -> H i j = H' i j).
    { induction i as [|i IH]; intros N j J; [apply (root_unique 2 _ _ _ _ ltac:(lia) (I j J) (I' j J))|].
      eapply (block_unique K K' _ _ (H i) _ (H' i)); [exact EK|reflexivity|apply IH; lia|apply S; lia|apply S'; lia|exact J]. }
    apply (words_determine 8); auto. intros j J. rewrite D, D' by exact J. now apply R.
  Qed.
End Unique.

(** ** Constants *)
Definition root_check (k : N) (w : nat) (px : nat * N) : bool :=
  let '(p, x) := px in
  (x <? 2 ^ N.of_nat w) &&
  existsb (fun q => let r := N.of_nat q * 2 ^ N.of_nat w + x in
                    (r ^ k <=? N.of_nat p * 2 ^ (k * N.of_nat w)) && (N.of_nat p * 2 ^ (k * N.of_nat w) <? (r + 1) ^ k)) (seq 0 21).
Lemma root_check_ok (k : N) (w : nat) (l : list N) : forallb (root_check k w) (combine (firstn (List.length l) primes) l) = true ->
  List.length (firstn (List.length l) primes) = List.length l ->
  forall t, (t < List.length l)%nat -> root_bits k (nth t primes 0%nat) w (nth t l 0).
Proof.
  intros H E t Ht. rewrite forallb_forall in H.
  assert (I : In (nth t primes 0%nat, nth t l 0) (combine (firstn (List.length l) primes) l)).
  { replace (nth t primes 0%nat) with (nth t (firstn (List.length l) primes) 0%nat).
    - rewrite <- (combine_nth _ _ t 0%nat 0 E). apply nth_In. rewrite combine_length, E. lia.
    - rewrite <- (firstn_skipn (List.length l) primes) at 2. rewrite app_nth1; [reflexivity|]. rewrite E. exact Ht. }
  specialize (H _ I). unfold root_check in H. apply andb_true_iff in H. destruct H as [H1 H2]. apply existsb_exists in H2.
  destruct H2 as (q & _ & H2). apply andb_true_iff in H2. destruct H2 as [H2 H3].
  exists (N.of_nat q * 2 ^ N.of_nat w + nth t l 0). split.
  - split; [now apply N.leb_le|now apply N.ltb_lt].
  - rewrite N.add_comm, N.mod_add by (apply N.pow_nonzero; discriminate). symmetry. apply N.mod_small. now apply N.ltb_lt.
Qed.
Lemma constants_256 : constants SHA_256 (fun t => nth t (sh_k sha256_params) 0).
Proof. intros t Ht. apply (root_check_ok 3 32 (sh_k sha256_params)); [vm_compute; reflexivity|vm_compute; reflexivity|exact Ht]. Qed.
Lemma initial_256 : initial SHA_256 (fun t => nth t (sh_h0 sha256_params) 0).
Proof. intros t Ht. apply (root_check_ok 2 32 (sh_h0 sha256_params)); [vm_compute; reflexivity|vm_compute; reflexivity|exact Ht]. Qed.
Lemma constants_512 : constants SHA_512 (fun t => nth t (sh_k sha512_params) 0).
Proof. intros t Ht. apply (root_check_ok 3 64 (sh_k sha512_params)); [vm_compute; reflexivity|vm_compute; reflexivity|exact Ht]. Qed.
Lemma initial_512 : initial SHA_512 (fun t => nth t (sh_h0 sha512_params) 0).
Proof. intros t Ht. apply (root_check_ok 2 64 (sh_h0 sha512_params)); [vm_compute; reflexivity|vm_compute; reflexivity|exact Ht]. Qed.

Lemma sha256_iff (m d : str) : 8 * N.of_nat (List.length m) < 2 ^ 64 -> d = sha256 m <-> digest SHA_256 m d.
Proof.
  intro B. assert (D : digest SHA_256 m (sha256 m)) by (apply (sha_digest _ _ fits_256 constants_256 initial_256); exact B).
  split; [intros ->; exact D|]. intro D'. now apply (digest_unique SHA_256 ltac:(cbn; lia) m).
Qed.
Lemma sha512_iff (m d : str) : 8 * N.of_nat (List.length m) < 2 ^ 128 -> d = sha512 m <-> digest SHA_512 m d.
Proof.
  intro B. assert (D : digest SHA_512 m (sha512 m)) by (apply (sha_digest _ _ fits_512 constants_512 initial_512); exact B).
  split; [intros ->; exact D|]. intro D'. now apply (digest_unique SHA_512 ltac:(cbn; lia) m).
Qed.

(** ** HMAC *)
Lemma xor_with_eq (n : N) (c : ascii) : n < 256 -> xor_with n c = xor_byte n c.
Proof.
  intro L. unfold xor_with, xor_byte. f_equal. symmetry. apply is_word.
  - assert (X : forall y, y < 256 -> N.lxor n y < 256).
    { intros y Hy. destruct (N.eq_dec (N.lxor n y) 0) as [->|Z]; [reflexivity|].
      change 256 with (2 ^ 8). apply N.log2_lt_pow2; [lia|].
      eapply N.le_lt_trans; [apply N.log2_lxor|].
      assert (G : forall z, z < 256 -> N.log2 z < 8).
      { intros z Hz. destruct (N.eq_dec z 0) as [->|Nz]; [reflexivity|]. apply N.log2_lt_pow2; [lia|exact Hz]. }
      apply N.max_lub_lt; now apply G. }
    apply X. unfold code. apply N_ascii_bounded.
  - intros i _. unfold bit. now rewrite N.lxor_spec.
Qed.
Section Hmac.
  Variables (hash : str -> str) (rel : str -> str -> Prop) (B D : nat) (limit : N).
  Hypothesis Agree : forall m d, 8 * N.of_nat (List.length m) < limit -> (d = hash m <-> rel m d).
  Hypothesis Size : forall m, List.length (hash m) = D.
  Hypothesis Fit : (D <= B)%nat.
  Lemma hmac_spec (key msg tag : str) :
    8 * N.of_nat (List.length key) < limit -> 8 * N.of_nat (B + List.length msg) < limit -> 8 * N.of_nat (B + D) < limit ->
    (tag = hmac hash B key msg <-> hmac_tag rel B key msg tag).
  Proof.
    intros Lk Lm Ld.
    assert (X : forall n k, n < 256 -> map (xor_with n) k = map (xor_byte n) k).
    { intros n k Hn. apply map_ext. intro c. now apply xor_with_eq. }
    set (k0 := hmac_key hash B key).
    assert (K0 : List.length k0 = B).
    { unfold k0, hmac_key. rewrite app_length, repeat_length. destruct (Nat.ltb_spec B (List.length key)); [rewrite Size|]; lia. }
    assert (L1 : 8 * N.of_nat (List.length (map (xor_byte 54) k0 ++ msg)) < limit) by (rewrite app_length, map_length, K0; exact Lm).
    assert (L2 : 8 * N.of_nat (List.length (map (xor_byte 92) k0 ++ hash (map (xor_byte 54) k0 ++ msg))) < limit)
      by (rewrite app_length, map_length, K0, Size; exact Ld).
    assert (Kk : forall k, ((List.length key <= B)%nat /\ k = key ++ repeat zero (B - List.length key)
         \/ (B < List.length key)%nat /\ exists h, rel key h /\ k = h ++ repeat zero (B - List.length h)) <-> k = k0).
    { intro k. unfold k0, hmac_key. destruct (Nat.ltb_spec B (List.length key)) as [Lt|Le]; split.
      - intros [[H _]|[_ (h & Hh & ->)]]; [lia|]. apply (Agree key h Lk) in Hh. now subst h.
      - intros ->. right. split; [exact Lt|]. exists (hash key). split; [now apply (Agree key _ Lk)|reflexivity].
      - intros [[_ ->]|[H _]]; [reflexivity|lia].
      - intros ->. left. split; [exact Le|reflexivity]. }
    unfold hmac. fold k0. split.
    - intros ->. exists k0, (hash (map (xor_byte 54) k0 ++ msg)). split; [now apply Kk|]. rewrite !X by reflexivity.
      split; [now apply (Agree _ _ L1)|now apply (Agree _ _ L2)].
    - intros (k & inner & H1 & H2 & H3). apply Kk in H1. subst k. rewrite X in H2, H3 by reflexivity.
      apply (Agree _ _ L1) in H2. subst inner. now apply (Agree _ _ L2) in H3.
  Qed.
End Hmac.
Lemma mac_sha256_iff (key msg tag : str) : 8 * N.of_nat (List.length key) < 2 ^ 64 -> 8 * N.of_nat (64 + List.length msg) < 2 ^ 64 ->
  tag = mac_sha256 key msg <-> hmac_tag (digest SHA_256) 64 key msg tag.
Proof. intros A B. apply (hmac_spec sha256 _ 64 32 (2 ^ 64)); auto using sha256_iff, sha256_length; [lia|reflexivity]. Qed.
Lemma mac_sha512_iff (key msg tag : str) : 8 * N.of_nat (List.length key) < 2 ^ 128 -> 8 * N.of_nat (128 + List.length msg) < 2 ^ 128 ->
  tag = mac_sha512 key msg <-> hmac_tag (digest SHA_512) 128 key msg tag.
Proof. intros A B. apply (hmac_spec sha512 _ 128 64 (2 ^ 128)); auto using sha512_iff, sha512_length; [lia|reflexivity]. Qed.
