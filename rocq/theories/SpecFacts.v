(** The texts of Spec.v are what the model's serializer prints. *)
From Verif Require Export Spec SfvParse.

Lemma lines_join (l : list str) : lines l = join [ch_lf] l.
Proof. induction l as [|x l IH]; [reflexivity|]. destruct l; [reflexivity|]. rewrite join_cons, <- IH. reflexivity. Qed.
Lemma spaced_join (l : list str) : spaced l = join $" " l.
Proof. induction l as [|x l IH]; [reflexivity|]. destruct l; [reflexivity|]. rewrite join_cons, <- IH. reflexivity. Qed.

(** ** Byte classes *)
Lemma visible_iff (c : ascii) : visible c <-> is_visible c = true.
Proof. unfold visible, is_visible, in_range, code. lia. Qed.
Lemma forall_iff (P : ascii -> Prop) (f : ascii -> bool) (s : str) :
  (forall c, P c <-> f c = true) -> (Forall P s <-> forallb f s = true).
Proof.
  intro H. rewrite forallb_forall, Forall_forall. split; intros G x Hx; apply H, G, Hx.
Qed.
Lemma visible_all (s : str) : Forall visible s <-> forallb is_visible s = true.
Proof. apply forall_iff, visible_iff. Qed.
Lemma one_of_iff (s : string) (c : ascii) : one_of s c <-> existsb (Ascii.eqb c) (list_ascii_of_string s) = true.
Proof.
  unfold one_of. rewrite existsb_exists. split.
  - intro H. exists c. split; [exact H|apply Ascii.eqb_refl].
  - intros (x & Hx & E). apply Ascii.eqb_eq in E. now subst.
Qed.
Lemma letter_iff (c : ascii) : letter c <-> is_alpha c = true.
Proof. unfold letter, is_alpha, is_lower, is_upper, in_range, code. lia. Qed.
Lemma lowercase_iff (c : ascii) : lowercase c <-> is_lower c = true.
Proof. unfold lowercase, is_lower, in_range, code. lia. Qed.
Lemma digit_iff (c : ascii) : digit c <-> is_digit c = true.
Proof. unfold digit, is_digit, in_range, code. lia. Qed.
Lemma tchar_iff (c : ascii) : tchar c <-> is_tchar c = true.
Proof. unfold tchar, is_tchar. rewrite !orb_true_iff, letter_iff, digit_iff, one_of_iff. unfold s2b. tauto. Qed.
Lemma token_char_iff (c : ascii) : tchar c \/ one_of ":/" c <-> is_token_char c = true.
Proof.
  unfold is_token_char. rewrite !orb_true_iff, tchar_iff, one_of_iff. cbn [list_ascii_of_string existsb].
  rewrite !orb_true_iff. split; [intros [H|[H|[H|H]]]|intros [[H|H]|H]]; try tauto; discriminate.
Qed.
Lemma token_start_iff (c : ascii) : letter c \/ c = "*"%char <-> is_token_start c = true.
Proof. unfold is_token_start. rewrite orb_true_iff, letter_iff, Ascii.eqb_eq. tauto. Qed.
Lemma key_char_iff (c : ascii) : lowercase c \/ digit c \/ one_of "_-*." c <-> is_key_char c = true.
Proof. unfold is_key_char. rewrite !orb_true_iff, lowercase_iff, digit_iff, one_of_iff. unfold s2b. tauto. Qed.
Lemma key_start_iff (c : ascii) : lowercase c \/ c = "*"%char <-> is_key_start c = true.
Proof. unfold is_key_start. rewrite orb_true_iff, lowercase_iff, Ascii.eqb_eq. tauto. Qed.

Lemma head_iff (P : ascii -> Prop) (f : ascii -> bool) (s : str) :
  (forall c, P c <-> f c = true) ->
  ((forall c s', s = c :: s' -> P c) <-> match s with c :: _ => f c | [] => true end = true).
Proof.
  intro H. destruct s as [|c s]; split; intro G.
  - reflexivity. - intros c s E. discriminate.
  - apply H. now apply (G c s). - intros c' s' E. injection E as <- <-. now apply H.
Qed.

Lemma token_text_iff (s t : str) : token_text s t <-> ser_token s = Some t.
Proof.
  unfold token_text, ser_token.
  rewrite (forall_iff _ _ s token_char_iff), (head_iff _ _ s token_start_iff).
  destruct (forallb is_token_char s); [|split; [easy|discriminate]].
  destruct (match s with c :: _ => is_token_start c | [] => true end); cbn [andb].
  - split; [intros (_ & _ & ->); reflexivity|intro H; injection H as <-; auto].
  - split; [easy|discriminate].
Qed.
Lemma key_text_iff (s t : str) : key_text s t <-> ser_key s = Some t.
Proof.
  unfold key_text, ser_key.
  rewrite (forall_iff _ _ s key_char_iff), (head_iff _ _ s key_start_iff).
  destruct (forallb is_key_char s); [|split; [easy|discriminate]].
  destruct (match s with c :: _ => is_key_start c | [] => true end); cbn [andb].
  - split; [intros (_ & _ & ->); reflexivity|intro H; injection H as <-; auto].
  - split; [easy|discriminate].
Qed.

(** ** Strings *)
Lemma escaped_escape (s : str) : List.concat (map escaped s) = escape s.
Proof.
  induction s as [|c s IH]; [reflexivity|]. cbn [map List.concat escape]. rewrite IH. unfold escaped.
  change """"%char with ch_quote. change "\"%char with ch_bslash.
  destruct (Ascii.eqb c ch_quote) eqn:E1; destruct (Ascii.eqb c ch_bslash) eqn:E2; reflexivity.
Qed.
Lemma string_text_iff (s t : str) : string_text s t <-> ser_string s = Some t.
Proof.
  unfold string_text, ser_string. rewrite visible_all, escaped_escape.
  destruct (forallb is_visible s); split; try easy.
  - intros [_ ->]. reflexivity.
  - intro H. injection H as <-. split; reflexivity.
Qed.

(** ** Numbers *)
Lemma digit_of_iff (c : ascii) (d : N) : digit_of c = Some d <-> is_digit c = true /\ d = digit_val c.
Proof.
  unfold digit_of, is_digit, in_range, digit_val, code. cbv zeta.
  destruct ((48 <=? N_of_ascii c) && (N_of_ascii c <=? 57))%N eqn:E; split; try easy.
  - intro H. injection H as <-. auto.
  - intros [_ ->]. reflexivity.
Qed.
Lemma numeral_value_acc (ds : str) (acc n : N) : numeral_value acc ds = Some n
  <-> forallb is_digit ds = true /\ n = fold_left (fun a c => 10 * a + digit_val c)%N ds acc.
Proof.
  revert acc. induction ds as [|c ds IH]; intro acc; cbn [numeral_value forallb fold_left].
  - split; [intro H; injection H as <-; auto|intros [_ ->]; reflexivity].
  - destruct (digit_of c) as [d|] eqn:E.
    + apply digit_of_iff in E. destruct E as [E ->]. rewrite E, IH. reflexivity.
    + destruct (is_digit c) eqn:F; [|cbn [andb]; split; easy].
      assert (digit_of c = Some (digit_val c)) by (apply digit_of_iff; auto). congruence.
Qed.
Lemma numeral_value_iff (ds : str) (n : N) :
  numeral_value 0 ds = Some n <-> forallb is_digit ds = true /\ n = val_of_dec ds.
Proof. apply numeral_value_acc. Qed.

(** No leading zero means a lower bound on the value. *)
Lemma no_leading_zero_bound (c : ascii) (ds : str) : forallb is_digit (c :: ds) = true -> c <> "0"%char ->
  (10 ^ N.of_nat (List.length ds) <= val_of_dec (c :: ds))%N.
Proof.
  intros H Hc. rewrite val_of_dec_cons. cbn [forallb] in H. apply andb_true_iff in H. destruct H as [H _].
  apply is_digit_code in H. unfold digit_val.
  assert (code c <> 48%N). { intro E. apply Hc. apply code_inj. exact E. }
  assert (1 <= code c - 48)%N by lia. nia.
Qed.
Lemma dec_of_N_no_zero (n : N) (t : str) : dec_of_N n = "0"%char :: t -> t = [].
Proof.
  intro E. destruct t as [|x t]; [reflexivity|exfalso].
  destruct (dec_of_N_spec n) as (H1 & H2 & H3 & H4 & H5). rewrite E in *.
  destruct (N.lt_ge_cases n 10) as [L|L]; [apply H4 in L; discriminate|]. specialize (H5 L).
  rewrite val_of_dec_cons in H3. change (digit_val "0") with 0%N in H3.
  cbn [forallb] in H1. apply andb_true_iff in H1. destruct H1 as [_ H1].
  pose proof (val_of_dec_lt (x :: t) H1) as V.
  replace (N.of_nat (List.length ("0"%char :: x :: t)) - 1)%N with (N.of_nat (List.length (x :: t))) in H5
    by (cbn [List.length]; lia). lia.
Qed.
Lemma digits_unique (a b : str) :
  forallb is_digit a = true -> forallb is_digit b = true -> a <> [] -> b <> [] ->
  (forall x, a = "0"%char :: x -> x = []) -> (forall x, b = "0"%char :: x -> x = []) ->
  val_of_dec a = val_of_dec b -> a = b.
Proof.
  intros Ha Hb Na Nb Za Zb E.
  destruct a as [|x a]; [easy|]. destruct b as [|y b]; [easy|].
  pose proof (val_of_dec_lt _ Ha) as La. pose proof (val_of_dec_lt _ Hb) as Lb.
  assert (Len : forall c ds n, forallb is_digit (c :: ds) = true -> (forall x, c :: ds = "0"%char :: x -> x = []) ->
                (val_of_dec (c :: ds) < 10 ^ N.of_nat (S n))%N -> (List.length ds <= n)%nat).
  { intros c ds n D Z L. destruct (ascii_dec c "0") as [->|N].
    - specialize (Z ds eq_refl). subst. simpl. lia.
    - pose proof (no_leading_zero_bound c ds D N) as B.
      destruct (Nat.le_gt_cases (List.length ds) n) as [|G]; [assumption|exfalso].
      assert (10 ^ N.of_nat (S n) <= 10 ^ N.of_nat (List.length ds))%N by (apply N.pow_le_mono_r; lia). lia. }
  apply val_of_dec_inj; try assumption. cbn [List.length] in *. f_equal. apply Nat.le_antisymm.
  - apply (Len x a); try assumption. now rewrite E.
  - apply (Len y b); try assumption. now rewrite <- E.
Qed.
Lemma digits_iff (ds : str) (n : N) : digits ds n <-> ds = dec_of_N n.
Proof.
  unfold digits. rewrite numeral_value_iff. split.
  - intros (H1 & (H2 & H3) & H4). apply digits_unique; auto.
    + apply dec_of_N_digits. + apply dec_of_N_ne. + intro x. apply dec_of_N_no_zero.
    + now rewrite dec_of_N_val.
  - intros ->. split; [apply dec_of_N_ne|]. split; [split; [apply dec_of_N_digits|now rewrite dec_of_N_val]|].
    intro x. apply dec_of_N_no_zero.
Qed.

Lemma integer_text_iff (z : Z) (t : str) : integer_text z t <-> ser_integer z = Some t.
Proof.
  unfold integer_text, ser_integer, sfv_int_max.
  destruct ((- (999999999999999) <=? z) && (z <=? 999999999999999))%Z eqn:E.
  - split.
    + intros [_ (ds & H & ->)]. apply digits_iff in H. subst. f_equal. rewrite dec_of_Z_shape.
      destruct (z <? 0)%Z; reflexivity.
    + intro H. injection H as <-. split; [lia|]. exists (dec_of_N (Z.abs_N z)).
      split; [now apply digits_iff|]. rewrite dec_of_Z_shape. destruct (z <? 0)%Z; reflexivity.
  - split; [|discriminate]. intros [H _]. lia.
Qed.

Lemma rounds_to_iff (d : decimal) (m : N) (s : nat) : rounds_to d m s <-> round3 d = Dec (d_neg d) m s.
Proof.
  unfold rounds_to, round3. destruct (d_scale d <=? 3)%nat eqn:E.
  - destruct d as [neg mt sc]. cbn [d_neg d_mant d_scale]. split.
    + intros [-> ->]. reflexivity.
    + intro H. injection H as <- <-. auto.
  - cbv zeta. set (u := (10 ^ N.of_nat (d_scale d - 3))%N). set (mt := d_mant d).
    assert (Hu : (0 < u)%N) by (unfold u; apply N.neq_0_lt_0, N.pow_nonzero; lia).
    pose proof (N.div_mod' mt u) as DM. pose proof (N.mod_lt mt u ltac:(lia)) as ML.
    set (q := (mt / u)%N) in *. set (r := (mt mod u)%N) in *. clearbody q r.
    (* the nearest integer is q or q+1 *)
    set (q' := match (2 * r ?= u)%N with Lt => q | Gt => (q + 1)%N | Eq => if N.even q then q else (q + 1)%N end).
    transitivity (s = 3%nat /\ m = q').
    2: { split; [intros [-> ->]; reflexivity|intro H; injection H as <- <-; auto]. }
    apply and_iff_compat_l. rewrite DM. clear DM.
    assert (Hm : ((2 * (m * u) <= 2 * (u * q + r) + u)%N /\ (2 * (u * q + r) <= 2 * (m * u) + u)%N)
                 -> m = q \/ m = (q + 1)%N).
    { intros [A B]. destruct (N.lt_trichotomy m q) as [L|[L|L]]; [|auto|].
      - assert (m + 1 <= q)%N by lia. nia.
      - destruct (N.eq_dec m (q + 1)) as [|N]; [auto|]. assert (q + 2 <= m)%N by lia. nia. }
    unfold q'. destruct (N.compare_spec (2 * r) u) as [C|C|C].
    + destruct (N.even q) eqn:Ev.
      * split.
        -- intros [A T]. destruct (Hm A) as [->| ->]; [reflexivity|].
           exfalso. assert (X : N.Even (q + 1)) by (apply T; left; nia).
           apply N.even_spec in X. rewrite N.even_add, Ev in X. discriminate.
        -- intros ->. split; [nia|]. intros _. now apply N.even_spec.
      * split.
        -- intros [A T]. destruct (Hm A) as [->| ->]; [|reflexivity].
           exfalso. assert (X : N.Even q) by (apply T; right; nia). apply N.even_spec in X. congruence.
        -- intros ->. split; [nia|]. intros _. apply N.even_spec. rewrite N.even_add, Ev. reflexivity.
    + split.
      * intros [A T]. destruct (Hm A) as [->| ->]; [reflexivity|]. exfalso. nia.
      * intros ->. split; [nia|]. intros [X|X]; exfalso; nia.
    + split.
      * intros [A T]. destruct (Hm A) as [->| ->]; [|reflexivity]. exfalso. nia.
      * intros ->. split; [nia|]. intros [X|X]; exfalso; nia.
Qed.

Lemma round3_neg (d : decimal) : d_neg (round3 d) = d_neg d.
Proof. unfold round3. destruct (_ <=? 3)%nat; reflexivity. Qed.

Lemma decimal_text_iff (d : decimal) (t : str) : decimal_text d t <-> ser_decimal d = Some t.
Proof.
  unfold decimal_text, ser_decimal.
  pose proof (round3_neg d) as Hn.
  destruct (round3 d) as [neg m0 s0] eqn:R. cbn [d_neg d_mant d_scale] in *. subst neg.
  set (u := (10 ^ N.of_nat s0)%N).
  assert (Hu : (u <> 0)%N) by (unfold u; apply N.pow_nonzero; lia).
  assert (Len12 : (12 <? N.of_nat (List.length (dec_of_N (m0 / u))))%N = negb (m0 / u <? 10 ^ 12)%N).
  { pose proof (dec_of_N_len (m0 / u) 12 ltac:(lia)) as L. change (N.of_nat 12) with 12%N in L.
    destruct (m0 / u <? 10 ^ 12)%N eqn:B; cbn [negb].
    - apply N.ltb_ge. apply N.ltb_lt in B. apply L in B. lia.
    - apply N.ltb_lt. apply N.ltb_ge in B.
      destruct (Nat.le_gt_cases (List.length (dec_of_N (m0 / u))) 12) as [G|G]; [|lia].
      apply L in G. lia. }
  assert (Hpad : (0 < m0 mod u)%N -> forallb is_digit (pad0 s0 (dec_of_N (m0 mod u))) = true
             /\ List.length (pad0 s0 (dec_of_N (m0 mod u))) = s0
             /\ val_of_dec (pad0 s0 (dec_of_N (m0 mod u))) = (m0 mod u)%N).
  { intro P. assert (L : (List.length (dec_of_N (m0 mod u)) <= s0)%nat).
    { apply dec_of_N_len; [|apply N.mod_lt, Hu]. destruct s0; [|lia].
      unfold u in P. change (10 ^ N.of_nat 0)%N with 1%N in P. rewrite N.mod_1_r in P. lia. }
    unfold pad0. rewrite forallb_app, digits_zeros, dec_of_N_digits, app_length, repeat_length, val_of_dec_zeros, dec_of_N_val.
    repeat split. lia. }
  split.
  - intros (m & s & ip & fp & i & f & H1 & H2 & H3 & H4 & [H5 H5'] & H6 & ->).
    apply rounds_to_iff in H1. rewrite R in H1. injection H1 as <- <-. fold u in H5, H5'.
    apply digits_iff in H2. subst ip. apply numeral_value_iff in H4. destruct H4 as [Df Vf].
    assert (Ei : (m0 / u = i)%N).
    { symmetry. apply (N.div_unique m0 u i f); lia. }
    assert (Ef : (m0 mod u = f)%N).
    { symmetry. apply (N.mod_unique m0 u i f); lia. }
    rewrite Len12, Ei, Ef. apply N.ltb_lt in H3. rewrite H3. cbn [negb].
    destruct (f =? 0)%N eqn:F.
    + destruct fp as [|x [|y fp]]; try discriminate. apply N.eqb_eq in F. subst f.
      unfold val_of_dec in F. cbn [fold_left forallb] in *. rewrite andb_true_r in Df.
      apply is_digit_code in Df. unfold digit_val in F.
      assert (x = "0"%char) by (apply code_inj; change (code "0"%char) with 48%N; lia). subst.
      destruct (d_neg d); reflexivity.
    + assert (fp = pad0 s0 (dec_of_N f)) as <-.
      { rewrite <- Ef in *. apply N.eqb_neq in F. destruct Hpad as (P1 & P2 & P3); [lia|].
        apply val_of_dec_inj; try assumption; congruence. }
      destruct (d_neg d); reflexivity.
  - rewrite Len12. destruct (m0 / u <? 10 ^ 12)%N eqn:B; [|discriminate]. cbn [negb]. apply N.ltb_lt in B.
    pose proof (N.div_mod' m0 u) as DM. pose proof (N.mod_lt m0 u Hu) as ML.
    assert (RT : rounds_to d m0 s0) by (now apply rounds_to_iff).
    destruct (m0 mod u =? 0)%N eqn:F; intro H; injection H as <-.
    + apply N.eqb_eq in F. exists m0, s0, (dec_of_N (m0 / u)), $"0", (m0 / u)%N, 0%N.
      split; [exact RT|]. split; [now apply digits_iff|]. split; [exact B|]. split; [reflexivity|].
      fold u. split; [split; lia|]. split; [reflexivity|]. destruct (d_neg d); reflexivity.
    + apply N.eqb_neq in F. destruct Hpad as (P1 & P2 & P3); [lia|].
      exists m0, s0, (dec_of_N (m0 / u)), (pad0 s0 (dec_of_N (m0 mod u))), (m0 / u)%N, (m0 mod u)%N.
      split; [exact RT|]. split; [now apply digits_iff|]. split; [exact B|].
      split; [apply numeral_value_iff; auto|]. fold u. split; [split; lia|].
      split; [replace (m0 mod u =? 0)%N with false by lia; exact P2|]. destruct (d_neg d); reflexivity.
Qed.

(** ** Base64 *)
Definition nb (b : bool) : N := if b then 1%N else 0%N.
Lemma code_bits b0 b1 b2 b3 b4 b5 b6 b7 :
  code (Ascii b0 b1 b2 b3 b4 b5 b6 b7)
  = (nb b0 + 2 * nb b1 + 4 * nb b2 + 8 * nb b3 + 16 * nb b4 + 32 * nb b5 + 64 * nb b6 + 128 * nb b7)%N.
Proof. destruct b0, b1, b2, b3, b4, b5, b6, b7; reflexivity. Qed.
Lemma bits6 a b c d e f : bits_value [a; b; c; d; e; f]
  = (32 * nb a + 16 * nb b + 8 * nb c + 4 * nb d + 2 * nb e + nb f)%N.
Proof. destruct a, b, c, d, e, f; reflexivity. Qed.
Lemma nb_lt (b : bool) : (nb b < 2)%N.
Proof. destruct b; reflexivity. Qed.
Lemma alphabet_sym (v : N) : (v < 64)%N -> nth (N.to_nat v) alphabet "?"%char = b64_sym v.
Proof.
  intro H.
  assert (E : forallb (fun v => Ascii.eqb (nth (N.to_nat v) alphabet "?"%char) (b64_sym v)) (map N.of_nat (seq 0 64)) = true)
    by (vm_compute; reflexivity).
  rewrite forallb_forall in E. apply Ascii.eqb_eq. apply (E v).
  apply in_map_iff. exists (N.to_nat v). split; [lia|]. apply in_seq. lia.
Qed.
Lemma b64_bits_encode (s : str) : b64_bits s = b64_encode s.
Proof.
  unfold b64_bits. cbv zeta.
  induction s as [| a | a b | a b c l IH] using list_ind3.
  - reflexivity.
  - destruct a as [a0 a1 a2 a3 a4 a5 a6 a7].
    cbn [map byte_bits List.concat app sextets firstn List.length Nat.modulo Nat.sub repeat b64_encode].
    rewrite !bits6. rewrite !alphabet_sym.
    + change (repeat "="%char ((4 - 2 mod 4) mod 4)) with [b64_pad; b64_pad].
      cbn [app]. rewrite code_bits.
      f_equal; [|f_equal]; f_equal; change (nb false) with 0%N; destruct a0, a1, a2, a3, a4, a5, a6, a7; reflexivity.
    + change (nb false) with 0%N. pose proof (nb_lt a0). pose proof (nb_lt a1). lia.
    + pose proof (nb_lt a2); pose proof (nb_lt a3); pose proof (nb_lt a4); pose proof (nb_lt a5); pose proof (nb_lt a6); pose proof (nb_lt a7). lia.
  - destruct a as [a0 a1 a2 a3 a4 a5 a6 a7]. destruct b as [b0 b1 b2 b3 b4 b5 b6 b7].
    cbn [map byte_bits List.concat app sextets firstn List.length Nat.modulo Nat.sub repeat b64_encode].
    rewrite !bits6. rewrite !alphabet_sym.
    + change (repeat "="%char ((4 - 3 mod 4) mod 4)) with [b64_pad].
      cbn [app]. rewrite !code_bits. change (nb false) with 0%N.
      f_equal; [|f_equal; [|f_equal]]; f_equal.
      * destruct a0, a1, a2, a3, a4, a5, a6, a7; reflexivity.
      * rewrite <- !code_bits. replace (code (Ascii a0 a1 a2 a3 a4 a5 a6 a7) mod 4)%N with (nb a0 + 2 * nb a1)%N
          by (destruct a0, a1, a2, a3, a4, a5, a6, a7; reflexivity).
        replace (code (Ascii b0 b1 b2 b3 b4 b5 b6 b7) / 16)%N with (nb b4 + 2 * nb b5 + 4 * nb b6 + 8 * nb b7)%N
          by (destruct b0, b1, b2, b3, b4, b5, b6, b7; reflexivity). lia.
      * destruct b0, b1, b2, b3, b4, b5, b6, b7; reflexivity.
    + change (nb false) with 0%N. pose proof (nb_lt b0); pose proof (nb_lt b1); pose proof (nb_lt b2); pose proof (nb_lt b3). lia.
    + pose proof (nb_lt a0); pose proof (nb_lt a1); pose proof (nb_lt b4); pose proof (nb_lt b5); pose proof (nb_lt b6); pose proof (nb_lt b7). lia.
    + pose proof (nb_lt a2); pose proof (nb_lt a3); pose proof (nb_lt a4); pose proof (nb_lt a5); pose proof (nb_lt a6); pose proof (nb_lt a7). lia.
  - cbn [b64_encode]. rewrite <- IH.
    destruct a as [a0 a1 a2 a3 a4 a5 a6 a7]. destruct b as [b0 b1 b2 b3 b4 b5 b6 b7]. destruct c as [c0 c1 c2 c3 c4 c5 c6 c7].
    cbn [map byte_bits List.concat app sextets].
    set (rest := map _ (sextets (List.concat (map byte_bits l)))).
    cbn [List.length app].
    replace (S (S (S (S (List.length rest)))) mod 4)%nat with (List.length rest mod 4)%nat
      by (replace (S (S (S (S (List.length rest))))) with (List.length rest + 1 * 4)%nat by lia;
          now rewrite Nat.mod_add).
    rewrite !bits6. rewrite !alphabet_sym.
    + f_equal; [|f_equal; [|f_equal; [|f_equal]]]; f_equal.
      * destruct a0, a1, a2, a3, a4, a5, a6, a7; reflexivity.
      * replace (code (Ascii a0 a1 a2 a3 a4 a5 a6 a7) mod 4)%N with (nb a0 + 2 * nb a1)%N
          by (destruct a0, a1, a2, a3, a4, a5, a6, a7; reflexivity).
        replace (code (Ascii b0 b1 b2 b3 b4 b5 b6 b7) / 16)%N with (nb b4 + 2 * nb b5 + 4 * nb b6 + 8 * nb b7)%N
          by (destruct b0, b1, b2, b3, b4, b5, b6, b7; reflexivity). lia.
      * replace (code (Ascii b0 b1 b2 b3 b4 b5 b6 b7) mod 16)%N with (nb b0 + 2 * nb b1 + 4 * nb b2 + 8 * nb b3)%N
          by (destruct b0, b1, b2, b3, b4, b5, b6, b7; reflexivity).
        replace (code (Ascii c0 c1 c2 c3 c4 c5 c6 c7) / 64)%N with (nb c6 + 2 * nb c7)%N
          by (destruct c0, c1, c2, c3, c4, c5, c6, c7; reflexivity). lia.
      * destruct c0, c1, c2, c3, c4, c5, c6, c7; reflexivity.
    + pose proof (nb_lt c0); pose proof (nb_lt c1); pose proof (nb_lt c2); pose proof (nb_lt c3); pose proof (nb_lt c4); pose proof (nb_lt c5). lia.
    + pose proof (nb_lt b0); pose proof (nb_lt b1); pose proof (nb_lt b2); pose proof (nb_lt b3); pose proof (nb_lt c6); pose proof (nb_lt c7). lia.
    + pose proof (nb_lt a0); pose proof (nb_lt a1); pose proof (nb_lt b4); pose proof (nb_lt b5); pose proof (nb_lt b6); pose proof (nb_lt b7). lia.
    + pose proof (nb_lt a2); pose proof (nb_lt a3); pose proof (nb_lt a4); pose proof (nb_lt a5); pose proof (nb_lt a6); pose proof (nb_lt a7). lia.
Qed.

(** ** Bare items, parameters, items, inner lists *)
Lemma bare_text_iff (b : bare) (t : str) : bare_text b t <-> ser_bare b = Some t.
Proof.
  destruct b as [d|z|s|bs|x|s]; cbn [bare_text ser_bare].
  - apply decimal_text_iff.
  - apply integer_text_iff.
  - apply string_text_iff.
  - unfold bytes_text. rewrite b64_bits_encode. split; [intros ->; reflexivity|intro H; injection H as <-; reflexivity].
  - destruct x; (split; [intros ->; reflexivity|intro H; injection H as <-; reflexivity]).
  - apply token_text_iff.
Qed.

Lemma ser_param_value (k : str) (v : bare) : v <> BBoolean true ->
  ser_param (k, v) = match ser_key k, ser_bare v with
                     | Some kt, Some t => Some (";"%char :: kt ++ $"=" ++ t)
                     | _, _ => None end.
Proof.
  intro H. unfold ser_param. cbn [fst snd]. destruct (ser_key k) as [kt|]; [|reflexivity].
  destruct v as [d|z|s|bs|[]|s]; try reflexivity. congruence.
Qed.
Lemma bare_true_dec (v : bare) : {v = BBoolean true} + {v <> BBoolean true}.
Proof. destruct v as [| | | |[]|]; (left; reflexivity) || (right; discriminate). Qed.

Lemma params_text_iff (p : params) (t : str) : params_text p t <-> ser_params p = Some t.
Proof.
  split.
  - induction 1 as [|k p kt pt Hk Hp IH|k v p kt vt pt Hv Hk Hb Hp IH]; cbn [ser_params].
    + reflexivity.
    + apply key_text_iff in Hk. unfold ser_param. cbn [fst snd]. now rewrite Hk, IH.
    + apply key_text_iff in Hk. apply bare_text_iff in Hb. rewrite ser_param_value by exact Hv.
      rewrite Hk, Hb, IH. cbn [app]. f_equal. f_equal. now rewrite <- !app_assoc.
  - revert t. induction p as [|[k v] p IH]; cbn [ser_params]; intros t H; [injection H as <-; constructor|].
    destruct (ser_param (k, v)) as [a|] eqn:E; [|discriminate].
    destruct (ser_params p) as [b|]; [|discriminate]. injection H as <-. specialize (IH b eq_refl).
    destruct (bare_true_dec v) as [->|Hv].
    + unfold ser_param in E. cbn [fst snd] in E. destruct (ser_key k) as [kt|] eqn:Ek; [|discriminate].
      injection E as <-. apply key_text_iff in Ek. exact (pt_true k p kt b Ek IH).
    + rewrite ser_param_value in E by exact Hv.
      destruct (ser_key k) as [kt|] eqn:Ek; [|discriminate]. destruct (ser_bare v) as [vt|] eqn:Eb; [|discriminate].
      injection E as <-. apply key_text_iff in Ek. apply bare_text_iff in Eb.
      pose proof (pt_value k v p kt vt b Hv Ek Eb IH) as X. cbn [app] in *. rewrite <- app_assoc. exact X.
Qed.

Lemma item_text_iff (i : item) (t : str) : item_text i t <-> ser_item i = Some t.
Proof.
  unfold item_text, ser_item. split.
  - intros (a & b & Ha & Hb & ->). apply bare_text_iff in Ha. apply params_text_iff in Hb. now rewrite Ha, Hb.
  - destruct (ser_bare (it_bare i)) as [a|] eqn:Ea; [|discriminate].
    destruct (ser_params (it_params i)) as [b|] eqn:Eb; [|discriminate]. intro H. injection H as <-.
    exists a, b. split; [now apply bare_text_iff|]. split; [now apply params_text_iff|reflexivity].
Qed.
Lemma items_text_iff (l : list item) (ts : list str) : Forall2 item_text l ts <-> ser_items l = Some ts.
Proof.
  revert ts. induction l as [|i l IH]; intro ts; cbn [ser_items].
  - split; [inversion 1; reflexivity|intro H; injection H as <-; constructor].
  - split.
    + inversion 1 as [|? a ? bs Ha Hb]; subst. apply item_text_iff in Ha. apply IH in Hb. now rewrite Ha, Hb.
    + destruct (ser_item i) as [a|] eqn:Ea; [|discriminate]. destruct (ser_items l) as [bs|]; [|discriminate].
      intro H. injection H as <-. constructor; [now apply item_text_iff|now apply IH].
Qed.
Lemma inner_text_iff (l : list item) (p : params) (t : str) :
  inner_text l p t <-> ser_inner_list (InnerList l p) = Some t.
Proof.
  unfold inner_text, ser_inner_list. cbn [il_items il_params]. split.
  - intros (its & pt & Hi & Hp & ->). apply items_text_iff in Hi. apply params_text_iff in Hp.
    now rewrite Hi, Hp, spaced_join.
  - destruct (ser_items l) as [its|] eqn:Ei; [|discriminate]. destruct (ser_params p) as [pt|] eqn:Ep; [|discriminate].
    intro H. injection H as <-. exists its, pt. rewrite spaced_join.
    split; [now apply items_text_iff|]. split; [now apply params_text_iff|reflexivity].
Qed.

(** ** Sameness *)
Lemma canon_bare_same (b : bare) : bare_small b \/ (forall d, b = BDecimal d -> (d_scale d <= 3)%nat) -> same_bare (canon_bare b) b.
Proof.
  intro H. destruct b as [d|z|s|bs|x|s]; cbn; try reflexivity.
  apply canon_dec_same. destruct H as [H|H]; [cbn in H; lia|now apply H].
Qed.
Lemma same_decimal_refl (d : decimal) : same_decimal d d.
Proof. split; reflexivity. Qed.
Lemma same_bare_refl (b : bare) : same_bare b b.
Proof. destruct b; cbn; auto using same_decimal_refl. Qed.
Lemma same_decimal_sym (a b : decimal) : same_decimal a b -> same_decimal b a.
Proof. intros [H1 H2]. split; auto. Qed.
Lemma same_decimal_trans (a b c : decimal) : same_decimal a b -> same_decimal b c -> same_decimal a c.
Proof.
  intros [H1 H2] [H3 H4]. split; [congruence|].
  assert (P : (10 ^ N.of_nat (d_scale b) <> 0)%N) by (apply N.pow_nonzero; lia).
  apply (N.mul_cancel_r _ _ _ P).
  rewrite <- N.mul_assoc, (N.mul_comm (10 ^ _) (10 ^ _)), N.mul_assoc, H2.
  rewrite <- N.mul_assoc, (N.mul_comm (10 ^ _) (10 ^ _)), N.mul_assoc, H4.
  rewrite <- !N.mul_assoc. f_equal. apply N.mul_comm.
Qed.
Lemma same_bare_sym (a b : bare) : same_bare a b -> same_bare b a.
Proof. destruct a, b; cbn; try easy; auto using same_decimal_sym. Qed.
Lemma same_bare_trans (a b c : bare) : same_bare a b -> same_bare b c -> same_bare a c.
Proof.
  destruct a, b; cbn; try easy; try (intro E; injection E as ->; tauto).
  destruct c; cbn; try easy. apply same_decimal_trans.
Qed.
