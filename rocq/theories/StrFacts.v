(** Lemmas about Str.v. *)
From Verif Require Export Str.
From Coq Require Export ZifyBool ZifyNat ZifyN.
Ltac Zify.zify_post_hook ::= Z.div_mod_to_equations.

(** ** Deciding statements about one byte *)
Definition all_bytes : list ascii := map ascii_of_N (map N.of_nat (seq 0 256)).
Lemma all_bytes_in (c : ascii) : In c all_bytes.
Proof.
  unfold all_bytes. apply in_map_iff. exists (N_of_ascii c). split.
  - apply ascii_N_embedding.
  - apply in_map_iff. exists (N.to_nat (N_of_ascii c)). split; [lia|].
    apply in_seq. pose proof (N_ascii_bounded c). lia.
Qed.
Lemma byte_all (P : ascii -> bool) : forallb P all_bytes = true -> forall c, P c = true.
Proof. intros H c. rewrite forallb_forall in H. apply H, all_bytes_in. Qed.
Definition byte_all2 (P : ascii -> ascii -> bool) :
  forallb (fun a => forallb (P a) all_bytes) all_bytes = true -> forall a b, P a b = true.
Proof. intros H a b. apply byte_all. exact (byte_all (fun a => forallb (P a) all_bytes) H a). Qed.

Lemma code_lt (c : ascii) : (code c < 256)%N.
Proof. apply N_ascii_bounded. Qed.
Lemma code_inj (a b : ascii) : code a = code b -> a = b.
Proof. intro H. rewrite <- (ascii_N_embedding a), <- (ascii_N_embedding b). unfold code in H. now rewrite H. Qed.
Lemma code_of (n : N) : (n < 256)%N -> code (ascii_of_N n) = n.
Proof. apply N_ascii_embedding. Qed.
Lemma of_code (c : ascii) : ascii_of_N (code c) = c.
Proof. apply ascii_N_embedding. Qed.

(** ** Equality *)
Lemma str_eqb_eq (a b : str) : str_eqb a b = true <-> a = b.
Proof.
  revert b; induction a as [|x a IH]; destruct b as [|y b]; simpl; split; intro H; try easy.
  - apply andb_true_iff in H. destruct H as [H1 H2]. apply Ascii.eqb_eq in H1. apply IH in H2. congruence.
  - injection H as -> ->. rewrite Ascii.eqb_refl. now apply IH.
Qed.
Lemma str_eqb_refl (a : str) : str_eqb a a = true.
Proof. now apply str_eqb_eq. Qed.
Lemma str_eqb_neq (a b : str) : str_eqb a b = false <-> a <> b.
Proof.
  split; intro H.
  - intro E. rewrite E, str_eqb_refl in H. discriminate.
  - destruct (str_eqb a b) eqn:E; [|reflexivity]. apply str_eqb_eq in E. contradiction.
Qed.
Lemma str_eqb_sym (a b : str) : str_eqb a b = str_eqb b a.
Proof.
  destruct (str_eqb a b) eqn:E; symmetry.
  - apply str_eqb_eq in E. subst. apply str_eqb_refl.
  - apply str_eqb_neq. apply str_eqb_neq in E. congruence.
Qed.
Lemma str_eq_dec (a b : str) : {a = b} + {a <> b}.
Proof. destruct (str_eqb a b) eqn:E; [left; now apply str_eqb_eq|right; now apply str_eqb_neq]. Qed.

(** ** Order *)
Lemma str_cmp_refl (a : str) : str_cmp a a = Eq.
Proof. induction a as [|x a IH]; simpl; [reflexivity|]. now rewrite N.compare_refl. Qed.
Lemma str_cmp_eq (a b : str) : str_cmp a b = Eq <-> a = b.
Proof.
  revert b; induction a as [|x a IH]; destruct b as [|y b]; simpl; split; intro H; try easy.
  - destruct (N.compare_spec (code x) (code y)) as [E|E|E]; try discriminate.
    apply code_inj in E. apply IH in H. congruence.
  - injection H as -> ->. rewrite N.compare_refl. now apply IH.
Qed.
Lemma str_cmp_antisym (a b : str) : str_cmp b a = CompOpp (str_cmp a b).
Proof.
  revert b; induction a as [|x a IH]; destruct b as [|y b]; simpl; try reflexivity.
  rewrite (N.compare_antisym (code x) (code y)). rewrite IH.
  destruct (code x ?= code y)%N; reflexivity.
Qed.
Lemma str_cmp_lt_trans (a b c : str) : str_cmp a b = Lt -> str_cmp b c = Lt -> str_cmp a c = Lt.
Proof.
  revert b c; induction a as [|x a IH]; destruct b as [|y b], c as [|z c]; simpl; try easy.
  destruct (N.compare_spec (code x) (code y)) as [E|E|E];
  destruct (N.compare_spec (code y) (code z)) as [F|F|F]; intros H1 H2; try discriminate.
  - replace (code x ?= code z)%N with Eq by (symmetry; apply N.compare_eq_iff; congruence). eauto.
  - replace (code x ?= code z)%N with Lt by (symmetry; apply N.compare_lt_iff; lia). reflexivity.
  - replace (code x ?= code z)%N with Lt by (symmetry; apply N.compare_lt_iff; lia). reflexivity.
  - replace (code x ?= code z)%N with Lt by (symmetry; apply N.compare_lt_iff; lia). reflexivity.
Qed.

(** ** take_while, drop_while *)
(** The text does not start with a byte of the class. *)
Definition stops (f : ascii -> bool) (s : str) : Prop := match s with [] => True | c :: _ => f c = false end.

Lemma take_drop (f : ascii -> bool) (s : str) : take_while f s ++ drop_while f s = s.
Proof. induction s as [|c s IH]; simpl; [reflexivity|]. destruct (f c); simpl; congruence. Qed.
Lemma take_while_all (f : ascii -> bool) (s : str) : forallb f (take_while f s) = true.
Proof. induction s as [|c s IH]; simpl; [reflexivity|]. destruct (f c) eqn:E; simpl; [now rewrite E|reflexivity]. Qed.
Lemma drop_while_stops (f : ascii -> bool) (s : str) : stops f (drop_while f s).
Proof. induction s as [|c s IH]; simpl; [exact I|]. destruct (f c) eqn:E; [exact IH|exact E]. Qed.
Lemma take_while_app (f : ascii -> bool) (a b : str) :
  forallb f a = true -> stops f b -> take_while f (a ++ b) = a.
Proof.
  intros Ha Hb. induction a as [|c a IH]; simpl.
  - destruct b as [|d b]; [reflexivity|]. simpl in *. now rewrite Hb.
  - simpl in Ha. apply andb_true_iff in Ha. destruct Ha as [-> Ha]. now rewrite IH.
Qed.
Lemma drop_while_app (f : ascii -> bool) (a b : str) :
  forallb f a = true -> stops f b -> drop_while f (a ++ b) = b.
Proof.
  intros Ha Hb. induction a as [|c a IH]; simpl.
  - destruct b as [|d b]; [reflexivity|]. simpl in *. now rewrite Hb.
  - simpl in Ha. apply andb_true_iff in Ha. destruct Ha as [-> Ha]. now apply IH.
Qed.
Lemma drop_while_id (f : ascii -> bool) (s : str) : stops f s -> drop_while f s = s.
Proof. destruct s as [|c s]; simpl; [reflexivity|]. now intros ->. Qed.
Lemma drop_while_len (f : ascii -> bool) (s : str) : (List.length (drop_while f s) <= List.length s)%nat.
Proof. induction s as [|c s IH]; simpl; [lia|]. destruct (f c); simpl; lia. Qed.
Lemma take_while_len (f : ascii -> bool) (s : str) :
  (List.length (take_while f s) + List.length (drop_while f s) = List.length s)%nat.
Proof. rewrite <- app_length, take_drop. reflexivity. Qed.
Lemma stops_weaken (f g : ascii -> bool) (s : str) :
  (forall c, g c = true -> f c = true) -> stops f s -> stops g s.
Proof. intro H. destruct s as [|c s]; simpl; [easy|]. intro E. destruct (g c) eqn:G; [apply H in G; congruence|reflexivity]. Qed.

Lemma forallb_impl {A} (f g : A -> bool) (l : list A) :
  (forall x, f x = true -> g x = true) -> forallb f l = true -> forallb g l = true.
Proof. intros H. induction l as [|x l IH]; simpl; [easy|]. rewrite !andb_true_iff. intros [E F]. auto. Qed.
Lemma forallb_In {A} (f : A -> bool) (l : list A) (x : A) : forallb f l = true -> In x l -> f x = true.
Proof. rewrite forallb_forall. auto. Qed.

(** ** Splitting *)
Lemma split_once_spec (c : ascii) (s a b : str) :
  split_once c s = Some (a, b) <-> s = a ++ c :: b /\ ~ In c a.
Proof.
  revert a b. induction s as [|x s IH]; simpl; intros a b; split.
  - discriminate.
  - intros [H _]. destruct a; discriminate.
  - destruct (Ascii.eqb_spec x c) as [->|N].
    + intro H. injection H as <- <-. split; [reflexivity|easy].
    + destruct (split_once c s) as [[a' b']|]; [|discriminate].
      intro H. injection H as <- <-. destruct (IH a' b') as [IH1 _].
      destruct (IH1 eq_refl) as [-> Hn].
      split; [reflexivity|]. intros [E|E]; [congruence|contradiction].
  - intros [H Hn]. destruct (Ascii.eqb_spec x c) as [->|N].
    + destruct a as [|y a]; simpl in *; [injection H as ->; reflexivity|].
      injection H as -> ->. exfalso. apply Hn. now left.
    + destruct a as [|y a]; simpl in *; [congruence|]. injection H as -> ->.
      destruct (IH a b) as [_ IH2]. rewrite IH2; [reflexivity|].
      split; [reflexivity|]. intro. apply Hn. now right.
Qed.
Lemma split_once_none (c : ascii) (s : str) : split_once c s = None <-> ~ In c s.
Proof.
  induction s as [|x s IH]; simpl; [now split|].
  destruct (Ascii.eqb_spec x c) as [->|N].
  - split; [discriminate|]. intro H. exfalso. apply H. now left.
  - destruct (split_once c s) as [[a b]|].
    + split; [discriminate|]. intro H. exfalso.
      assert (Some (a, b) = None) by (apply IH; tauto). discriminate.
    + split; [|reflexivity]. intros _ [H|H]; [contradiction|]. now apply IH in H.
Qed.

Lemma split_app (c : ascii) (a b : str) : ~ In c a -> split c (a ++ c :: b) = a :: split c b.
Proof.
  induction a as [|x a IH]; simpl; intro H.
  - now rewrite Ascii.eqb_refl.
  - destruct (Ascii.eqb_spec x c) as [->|N]; [exfalso; apply H; now left|].
    rewrite IH by tauto. reflexivity.
Qed.
Lemma split_nosep (c : ascii) (a : str) : ~ In c a -> split c a = [a].
Proof.
  induction a as [|x a IH]; simpl; intro H; [reflexivity|].
  destruct (Ascii.eqb_spec x c) as [->|N]; [exfalso; apply H; now left|].
  now rewrite IH by tauto.
Qed.
Lemma split_nonempty (c : ascii) (s : str) : split c s <> [].
Proof.
  destruct s as [|x s]; simpl; [easy|]. destruct (Ascii.eqb x c); [easy|].
  destruct (split c s); easy.
Qed.
Lemma split_pieces (c : ascii) (s p : str) : In p (split c s) -> ~ In c p.
Proof.
  revert p. induction s as [|x s IH]; simpl; intros p H.
  - destruct H as [<-|[]]. easy.
  - destruct (Ascii.eqb_spec x c) as [->|N].
    + destruct H as [<-|H]; [easy|auto].
    + destruct (split c s) as [|q ps] eqn:E; [now apply split_nonempty in E|].
      destruct H as [<-|H].
      * intros [F|F]; [congruence|]. apply (IH q); [now left|exact F].
      * apply IH. now right.
Qed.
Lemma join_split (c : ascii) (s : str) : join [c] (split c s) = s.
Proof.
  induction s as [|x s IH]; [reflexivity|]. simpl split.
  destruct (Ascii.eqb_spec x c) as [->|N].
  - pose proof (split_nonempty c s). destruct (split c s) as [|q ps] eqn:E; [easy|].
    change (join [c] ([] :: q :: ps)) with ([] ++ [c] ++ join [c] (q :: ps)). now rewrite IH.
  - destruct (split c s) as [|q ps] eqn:E; [now apply split_nonempty in E|].
    destruct ps as [|r ps]; simpl in IH |- *; congruence.
Qed.
Lemma split_join (c : ascii) (l : list str) :
  l <> [] -> (forall p, In p l -> ~ In c p) -> split c (join [c] l) = l.
Proof.
  intros Hne H. induction l as [|p l IH]; [easy|]. destruct l as [|q l].
  - simpl. apply split_nosep, H. now left.
  - change (join [c] (p :: q :: l)) with (p ++ [c] ++ join [c] (q :: l)). change ([c] ++ join [c] (q :: l)) with (c :: join [c] (q :: l)).
    rewrite split_app by (apply H; now left). rewrite IH; [reflexivity|easy|].
    intros r Hr. apply H. now right.
Qed.

Lemma join_cons (sep x y : str) (l : list str) : join sep (x :: y :: l) = x ++ sep ++ join sep (y :: l).
Proof. reflexivity. Qed.

Lemma starts_with_spec (p s : str) : starts_with p s = true <-> exists r, s = p ++ r.
Proof.
  revert s. induction p as [|x p IH]; simpl; intro s.
  - split; eauto.
  - destruct s as [|y s].
    + split; [discriminate|]. intros [r H]; discriminate.
    + rewrite andb_true_iff, IH. split.
      * intros [E [r ->]]. apply Ascii.eqb_eq in E. subst. eauto.
      * intros [r H]. injection H as -> ->. split; [apply Ascii.eqb_refl|eauto].
Qed.

(** ** Decimal numerals *)
Local Open Scope N_scope.
Lemma digit_char_code (d : N) : d < 10 -> code (digit_char d) = 48 + d.
Proof. intro H. unfold digit_char. apply code_of. lia. Qed.
Lemma is_digit_char (d : N) : d < 10 -> is_digit (digit_char d) = true.
Proof. intro H. unfold is_digit, in_range. rewrite digit_char_code by exact H. lia. Qed.
Lemma digit_val_char (d : N) : d < 10 -> digit_val (digit_char d) = d.
Proof. intro H. unfold digit_val. rewrite digit_char_code by exact H. lia. Qed.
Lemma is_digit_code (c : ascii) : is_digit c = true -> 48 <= code c <= 57.
Proof. unfold is_digit, in_range. lia. Qed.

Lemma val_of_dec_acc (s : str) (a : N) :
  fold_left (fun a c => 10 * a + digit_val c) s a
  = a * 10 ^ N.of_nat (List.length s) + val_of_dec s.
Proof.
  unfold val_of_dec. revert a. induction s as [|c s IH]; intro a.
  - simpl fold_left. change (N.of_nat (List.length (@nil ascii))) with 0. rewrite N.pow_0_r. lia.
  - cbn [fold_left]. rewrite IH, (IH (10 * 0 + digit_val c)). cbn [List.length].
    rewrite Nat2N.inj_succ, N.pow_succ_r'. lia.
Qed.
Lemma val_of_dec_app (a b : str) :
  val_of_dec (a ++ b) = val_of_dec a * 10 ^ N.of_nat (List.length b) + val_of_dec b.
Proof. unfold val_of_dec at 1. rewrite fold_left_app. apply val_of_dec_acc. Qed.
Lemma val_of_dec_cons (c : ascii) (b : str) :
  val_of_dec (c :: b) = digit_val c * 10 ^ N.of_nat (List.length b) + val_of_dec b.
Proof.
  change (c :: b) with ([c] ++ b). rewrite val_of_dec_app. f_equal. 
Qed.
Lemma val_of_dec_lt (s : str) : forallb is_digit s = true -> val_of_dec s < 10 ^ N.of_nat (List.length s).
Proof.
  induction s as [|c s IH]; intro H.
  - reflexivity.
  - simpl in H. apply andb_true_iff in H. destruct H as [Hc Hs].
    rewrite val_of_dec_cons. cbn [List.length]. rewrite Nat2N.inj_succ, N.pow_succ_r'.
    apply is_digit_code in Hc. specialize (IH Hs). unfold digit_val.
    assert (code c - 48 <= 9) by lia. nia.
Qed.

(** The digits of [n] as [dec_fuel] produces them. *)
Lemma dec_fuel_spec (f : nat) (n : N) (acc : str) :
  n < 10 ^ N.of_nat f -> (f > 0)%nat ->
  exists ds, dec_fuel f n acc = ds ++ acc /\ forallb is_digit ds = true /\ ds <> []
             /\ val_of_dec ds = n
             /\ (n < 10 -> List.length ds = 1%nat)
             /\ (10 <= n -> 10 ^ (N.of_nat (List.length ds) - 1) <= n).
Proof.
  revert n acc. induction f as [|f IH]; intros n acc Hn Hf; [lia|].
  cbn [dec_fuel].
  assert (Hm : n mod 10 < 10) by (apply N.mod_lt; lia).
  destruct (N.eqb_spec (n / 10) 0) as [E|E].
  - exists [digit_char (n mod 10)]. simpl. rewrite is_digit_char by exact Hm.
    assert (n < 10) by (apply N.div_small_iff in E; lia).
    assert (n mod 10 = n) by (apply N.mod_small; lia).
    repeat split; try easy; try lia.
    unfold val_of_dec. cbn [fold_left]. rewrite digit_val_char by exact Hm. lia.
  - assert (Hge : 10 <= n).
    { destruct (N.le_gt_cases 10 n) as [L|L]; [exact L|]. exfalso. apply E, N.div_small. exact L. }
    destruct f as [|f].
    { exfalso. change (10 ^ N.of_nat 1) with 10 in Hn. lia. }
    assert (Hq : n / 10 < 10 ^ N.of_nat (S f)).
    { apply N.div_lt_upper_bound; [lia|]. rewrite <- N.pow_succ_r'.
      rewrite <- Nat2N.inj_succ. exact Hn. }
    destruct (IH (n / 10) (digit_char (n mod 10) :: acc) Hq ltac:(lia))
      as (ds & H1 & H2 & H3 & H4 & H5 & H6).
    exists (ds ++ [digit_char (n mod 10)]). rewrite H1. split; [now rewrite <- app_assoc|].
    split; [rewrite forallb_app, H2; simpl; now rewrite is_digit_char|].
    split; [destruct ds; easy|].
    split.
    { rewrite val_of_dec_app, H4. cbn [List.length]. change (N.of_nat 1) with 1.
      rewrite N.pow_1_r. unfold val_of_dec. cbn [fold_left]. rewrite digit_val_char by exact Hm.
      pose proof (N.div_mod' n 10). lia. }
    split; [lia|]. intros _.
    rewrite app_length. cbn [List.length].
    replace (N.of_nat (List.length ds + 1) - 1) with (N.of_nat (List.length ds)) by lia.
    destruct (N.le_gt_cases 10 (n / 10)) as [L|L].
    + specialize (H6 L).
      assert (0 < List.length ds)%nat by (destruct ds; [easy|simpl; lia]).
      replace (N.of_nat (List.length ds)) with (N.succ (N.of_nat (List.length ds) - 1)) by lia.
      rewrite N.pow_succ_r'. pose proof (N.div_mod' n 10). lia.
    + rewrite (H5 L). change (N.of_nat 1) with 1. rewrite N.pow_1_r. exact Hge.
Qed.

Lemma size_nat_pow (n : N) : n < 10 ^ N.of_nat (S (N.size_nat n)).
Proof.
  assert (H : n < 2 ^ N.of_nat (S (N.size_nat n))).
  { destruct n as [|p]; [reflexivity|].
    assert (E : N.of_nat (N.size_nat (N.pos p)) = N.size (N.pos p)).
    { cbn [N.size_nat N.size]. induction p as [p IHp|p IHp|]; cbn [Pos.size_nat Pos.size];
        try reflexivity; rewrite Nat2N.inj_succ, IHp; reflexivity. }
    rewrite Nat2N.inj_succ, E, N.pow_succ_r'. pose proof (N.size_gt (N.pos p)). lia. }
  eapply N.lt_le_trans; [exact H|]. apply N.pow_le_mono_l. lia.
Qed.

Lemma dec_of_N_spec (n : N) :
  forallb is_digit (dec_of_N n) = true /\ dec_of_N n <> [] /\ val_of_dec (dec_of_N n) = n
  /\ (n < 10 -> List.length (dec_of_N n) = 1%nat)
  /\ (10 <= n -> 10 ^ (N.of_nat (List.length (dec_of_N n)) - 1) <= n).
Proof.
  unfold dec_of_N.
  destruct (dec_fuel_spec (S (N.size_nat n)) n [] (size_nat_pow n) ltac:(lia)) as (ds & H1 & H2 & H3 & H4 & H5 & H6).
  rewrite H1, app_nil_r. auto.
Qed.
Lemma dec_of_N_digits (n : N) : forallb is_digit (dec_of_N n) = true.
Proof. apply dec_of_N_spec. Qed.
Lemma dec_of_N_val (n : N) : val_of_dec (dec_of_N n) = n.
Proof. apply dec_of_N_spec. Qed.
Lemma dec_of_N_ne (n : N) : dec_of_N n <> [].
Proof. apply dec_of_N_spec. Qed.

(** Number of digits: at most [k] exactly below [10^k]. *)
Lemma dec_of_N_len (n : N) (k : nat) : (k > 0)%nat ->
  ((List.length (dec_of_N n) <= k)%nat <-> n < 10 ^ N.of_nat k).
Proof.
  intro Hk. destruct (dec_of_N_spec n) as (H1 & H2 & H3 & H4 & H5). split; intro H.
  - pose proof (val_of_dec_lt _ H1) as L. rewrite H3 in L.
    eapply N.lt_le_trans; [exact L|]. apply N.pow_le_mono_r; lia.
  - destruct (N.lt_ge_cases n 10) as [L|L]; [rewrite (H4 L); lia|]. specialize (H5 L).
    destruct (Nat.le_gt_cases (List.length (dec_of_N n)) k) as [|G]; [assumption|exfalso].
    assert (10 ^ N.of_nat k <= 10 ^ (N.of_nat (List.length (dec_of_N n)) - 1)).
    { apply N.pow_le_mono_r; lia. }
    lia.
Qed.

(** A digit string of a given length is determined by its value. *)
Lemma val_of_dec_inj (a b : str) :
  forallb is_digit a = true -> forallb is_digit b = true ->
  List.length a = List.length b -> val_of_dec a = val_of_dec b -> a = b.
Proof.
  revert b. induction a as [|x a IH]; destruct b as [|y b]; simpl; intros Ha Hb Hl Hv; try easy.
  apply andb_true_iff in Ha, Hb. destruct Ha as [Hx Ha], Hb as [Hy Hb].
  injection Hl as Hl. rewrite !val_of_dec_cons, Hl in Hv.
  pose proof (val_of_dec_lt _ Ha) as La. pose proof (val_of_dec_lt _ Hb) as Lb.
  rewrite Hl in La. apply is_digit_code in Hx, Hy. unfold digit_val in Hv.
  assert (code x - 48 = code y - 48) by nia.
  assert (code x = code y) by lia. apply code_inj in H0. subst. f_equal. apply IH; auto. lia.
Qed.

Lemma dec_of_N_inj (m n : N) : dec_of_N m = dec_of_N n -> m = n.
Proof. intro H. rewrite <- (dec_of_N_val m), <- (dec_of_N_val n). now rewrite H. Qed.
