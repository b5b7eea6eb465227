(** Lemmas about HostParse.v: numbers and IPv4 addresses. *)
From Verif Require Export SpecHost QueryFacts UrlFacts.
From Verif Require Import ReadFacts.

(** ** Numerals *)
Lemma radix_snoc (r : N) (s : str) (c : ascii) :
  radix_value r (s ++ [c]) = match hex_val c with Some d => (r * radix_value r s + d)%N | None => radix_value r s end.
Proof. unfold radix_value. rewrite fold_left_app. reflexivity. Qed.
Lemma numeral_iff (r : N) (s : str) (n : N) : numeral r s n <-> forallb (digit_in r) s = true /\ n = radix_value r s.
Proof.
  split.
  - induction 1 as [|s c n d H [IH ->] E L]; [split; reflexivity|]. apply hex_digit_iff in E.
    rewrite forallb_app, IH, radix_snoc, E. cbn [forallb andb]. unfold digit_in. rewrite E. split; [lia|reflexivity].
  - intros [F ->]. induction s as [|c s IH] using rev_ind; [constructor|].
    rewrite forallb_app in F. apply andb_true_iff in F. destruct F as [F G]. cbn [forallb] in G. rewrite andb_true_r in G.
    unfold digit_in in G. rewrite radix_snoc. destruct (hex_val c) as [d|] eqn:E; [|discriminate].
    constructor; [now apply IH|now apply hex_digit_iff|lia].
Qed.
Lemma numeral_fun (r : N) (s : str) (m n : N) : numeral r s m -> numeral r s n -> m = n.
Proof. rewrite !numeral_iff. intros [_ ->] [_ ->]. reflexivity. Qed.
Lemma numeral_lt (r : N) (s : str) (n : N) : (0 < r)%N -> numeral r s n -> (n < r ^ N.of_nat (List.length s))%N.
Proof.
  intros R. induction 1 as [|s c n d H IH E L]; [cbn; lia|]. rewrite app_length. cbn [List.length].
  replace (N.of_nat (List.length s + 1)) with (N.succ (N.of_nat (List.length s))) by lia. rewrite N.pow_succ_r'. nia.
Qed.
Lemma digit_in_dot (r : N) (s : str) : forallb (digit_in r) s = true -> ~ In "."%char s /\ ~ In ":"%char s.
Proof. intro F. rewrite forallb_forall in F. split; intro I; apply F in I; discriminate. Qed.
Lemma digit_in_ten (c : ascii) : digit_in 10 c = is_digit c.
Proof.
  assert (E : forallb (fun c => Bool.eqb (digit_in 10 c) (is_digit c)) (map ascii_of_N (map N.of_nat (seq 0 256))) = true) by (vm_compute; reflexivity).
  rewrite forallb_forall in E. apply Bool.eqb_prop, E. apply in_map_iff. exists (N_of_ascii c). split; [apply ascii_N_embedding|].
  apply in_map_iff. exists (N.to_nat (N_of_ascii c)). split; [lia|]. apply in_seq. pose proof (N_ascii_bounded c). lia.
Qed.
Lemma forallb_ten (s : str) : forallb (digit_in 10) s = forallb is_digit s.
Proof. induction s as [|c s IH]; [reflexivity|]. cbn [forallb]. now rewrite IH, digit_in_ten. Qed.
Lemma radix_ten (s : str) : forallb is_digit s = true -> radix_value 10 s = val_of_dec s.
Proof.
  induction s as [|c s IH] using rev_ind; [reflexivity|]. rewrite forallb_app. intro F. apply andb_true_iff in F. destruct F as [F G].
  cbn [forallb] in G. rewrite andb_true_r in G. rewrite radix_snoc, (IH F).
  assert (E : hex_val c = Some (digit_val c)) by (unfold hex_val; rewrite G; reflexivity). rewrite E.
  unfold val_of_dec. rewrite fold_left_app. reflexivity.
Qed.
Lemma dec_numeral (n : N) : numeral 10 (dec_of_N n) n.
Proof.
  apply numeral_iff. rewrite forallb_ten, dec_of_N_digits. split; [reflexivity|].
  rewrite radix_ten by apply dec_of_N_digits. symmetry. apply dec_of_N_val.
Qed.

(** ** Numbers *)
Lemma number_spec (s : str) :
  match parse_ipv4number s with
  | None => forall n, ~ c_number s n
  | Some o => exists n, (forall m, c_number s m <-> m = n) /\ o = (if (n <? 2 ^ 32)%N then Some n else None)
  end.
Proof.
  destruct s as [|c s]; [intros n H; inversion H; congruence|].
  unfold parse_ipv4number. destruct (starts_with $"0x" (c :: s) || starts_with $"0X" (c :: s)) eqn:Hx.
  - assert (E : exists x t, c = "0"%char /\ s = x :: t /\ (x = "x"%char \/ x = "X"%char)).
    { apply orb_true_iff in Hx. destruct Hx as [Hx|Hx]; apply starts_with_spec in Hx; destruct Hx as [t Hx]; injection Hx as -> ->; eauto 6. }
    destruct E as (x & t & -> & -> & Ex). cbn [skipn].
    assert (U : forall m, c_number ("0"%char :: x :: t) m <-> numeral 16 t m).
    { intro m. split; [|now constructor]. intro H. inversion H as [s n N1 N2 N3|s n N1 N2|x' s n X' N2]; subst.
      - exfalso. now apply (N2 (x :: t)).
      - apply numeral_iff in N2. destruct N2 as [N2 _]. cbn [forallb] in N2. destruct Ex as [-> | ->]; discriminate N2.
      - exact N2. }
    destruct t as [|a t]; [exists 0%N; split; [|reflexivity]|].
    + intro m. rewrite U, numeral_iff. cbn. split; [intros [_ ->]; reflexivity|intros ->; auto].
    + destruct (forallb (digit_in 16) (a :: t)) eqn:F.
      * exists (radix_value 16 (a :: t)). split; [|reflexivity]. intro m. rewrite U, numeral_iff, F. tauto.
      * intros n H. apply U, numeral_iff in H. destruct H as [H _]. congruence.
  - destruct (starts_with $"0" (c :: s) && (2 <=? List.length (c :: s))%nat) eqn:Ho.
    + apply andb_true_iff in Ho. destruct Ho as [Ho L]. apply starts_with_spec in Ho. destruct Ho as [t Ho]. injection Ho as -> <-.
      cbn [skipn]. destruct s as [|a s]; [discriminate|].
      assert (U : forall m, c_number ("0"%char :: a :: s) m <-> numeral 8 (a :: s) m).
      { intro m. split.
        - intro H. inversion H as [s' n N1 N2 N3|s' n N1 N2|x' s' n X' N2]; subst.
          + exfalso. now apply (N2 (a :: s)).
          + exact N2.
          + exfalso. destruct X' as [-> | ->]; discriminate Hx.
        - intro H. now constructor. }
      destruct (forallb (digit_in 8) (a :: s)) eqn:F.
      * exists (radix_value 8 (a :: s)). split; [|reflexivity]. intro m. rewrite U, numeral_iff, F. tauto.
      * intros n H. apply U, numeral_iff in H. destruct H as [H _]. congruence.
    + assert (U : forall m, c_number (c :: s) m <-> numeral 10 (c :: s) m).
      { intro m. split.
        - intro H. inversion H as [s' n N1 N2 N3|s' n N1 N2|x' s' n X' N2]; subst.
          + exact N3.
          + exfalso. destruct s as [|a s]; [congruence|discriminate Ho].
          + exfalso. destruct X' as [-> | ->]; discriminate Hx.
        - intro H. constructor; [discriminate| |exact H]. intros t Ht E. injection E as -> ->.
          destruct t as [|a t]; [congruence|discriminate Ho]. }
      destruct (forallb (digit_in 10) (c :: s)) eqn:F.
      * exists (radix_value 10 (c :: s)). split; [|reflexivity]. intro m. rewrite U, numeral_iff, F. tauto.
      * intros n H. apply U, numeral_iff in H. destruct H as [H _]. congruence.
Qed.
Lemma number_iff (s : str) (n : N) : parse_ipv4number s = Some (Some n) <-> c_number s n /\ (n < 2 ^ 32)%N.
Proof.
  pose proof (number_spec s) as H. destruct (parse_ipv4number s) as [o|].
  - destruct H as (m & U & ->). split.
    + destruct (m <? 2 ^ 32)%N eqn:L; [|discriminate]. intro H. assert (m = n) by congruence. subst n. split; [now apply U|lia].
    + intros [C L]. apply U in C. subst m. replace (n <? 2 ^ 32)%N with true by lia. reflexivity.
  - split; [discriminate|]. intros [C _]. now apply H in C.
Qed.
Lemma number_some (s : str) : (exists o, parse_ipv4number s = Some o) <-> exists n, c_number s n.
Proof.
  pose proof (number_spec s) as H. destruct (parse_ipv4number s) as [o|].
  - destruct H as (m & U & _). split; [intros _; exists m; now apply U|eauto].
  - split; [intros (o & E); discriminate|]. intros (n & C). now apply H in C.
Qed.
Lemma c_number_dots (s : str) (n : N) : c_number s n -> s <> [] /\ ~ In "."%char s.
Proof.
  intros [s0 n0 H1 _ H|s0 n0 _ H|x s0 n0 X H]; apply numeral_iff in H; destruct H as [H _]; apply digit_in_dot in H; destruct H as [H _].
  - auto.
  - split; [discriminate|]. intros [E|E]; [discriminate|auto].
  - split; [discriminate|]. intros [E|[E|E]]; [discriminate|destruct X; subst; discriminate|auto].
Qed.

(** ** Dots *)
Lemma dotted_join (l : list str) : dotted l = join $"." l.
Proof. induction l as [|x [|y l] IH]; try reflexivity. cbn [dotted]. rewrite join_cons, <- IH. reflexivity. Qed.
Lemma join_snoc_nil (l : list str) : l <> [] -> join $"." (l ++ [[]]) = join $"." l ++ $".".
Proof.
  induction l as [|x [|y l] IH]; intro H; [congruence|reflexivity|]. cbn [app].
  rewrite !join_cons. cbn [app] in IH. rewrite IH by discriminate. now rewrite !app_assoc.
Qed.
(** The parts of a text of dotted numbers, with or without a last dot. *)
Definition dot_parts (s : str) : list str :=
  match rev (split "." s) with [] :: before => rev before | _ => split "." s end.
Lemma dot_parts_of (l : list str) (t : str) : l <> [] -> Forall (fun p => p <> [] /\ ~ In "."%char p) l -> t = [] \/ t = $"." ->
  dot_parts (dotted l ++ t) = l.
Proof.
  intros N F T. assert (X : forall p, In p l -> ~ In "."%char p) by (intros p I; rewrite Forall_forall in F; now apply F).
  assert (Y : forall p, In p (l ++ [[]]) -> ~ In "."%char p).
  { intros p I. apply in_app_or in I. destruct I as [I|[<-|[]]]; [now apply X|intros []]. }
  unfold dot_parts. rewrite dotted_join. destruct T as [-> | ->].
  - rewrite app_nil_r. change $"." with ["."%char]. rewrite split_join by assumption.
    destruct (rev l) as [|[|c x] before] eqn:E; try reflexivity. exfalso.
    assert (I : In ([] : str) (rev l)) by (rewrite E; now left). rewrite <- in_rev in I. rewrite Forall_forall in F. now apply F in I.
  - rewrite <- join_snoc_nil by exact N. change $"." with ["."%char]. rewrite split_join; [|now destruct l|exact Y].
    rewrite rev_app_distr. cbn [rev app]. apply rev_involutive.
Qed.
Lemma dot_parts_inv (s : str) : dot_parts s <> [] -> exists t, s = dotted (dot_parts s) ++ t /\ (t = [] \/ t = $".").
Proof.
  pose proof (join_split "." s) as J. unfold dot_parts. intro N. rewrite dotted_join. change $"." with ["."%char].
  destruct (rev (split "." s)) as [|[|c x] before] eqn:E.
  - exists []. rewrite J, app_nil_r. auto.
  - exists $".". split; [|now right]. assert (X : split "." s = rev before ++ [[]]) by (rewrite <- (rev_involutive (split _ _)), E; reflexivity).
    rewrite X in J. change ["."%char] with $"." in *. rewrite join_snoc_nil in J by exact N. symmetry. exact J.
  - exists []. rewrite J, app_nil_r. auto.
Qed.
Lemma dot_parts_nodot (s p : str) : In p (dot_parts s) -> ~ In "."%char p.
Proof.
  unfold dot_parts. intro I. apply (split_pieces "." s). destruct (rev (split "." s)) as [|[|c x] before] eqn:E; try exact I.
  rewrite <- in_rev in I. rewrite in_rev, E. now right.
Qed.

(** ** Addresses *)
Lemma numbers_iff (parts : list str) (l : list N) :
  ipv4_numbers parts = Some l <-> Forall2 (fun p n => c_number p n /\ (n < 2 ^ 32)%N) parts l.
Proof.
  revert l. induction parts as [|p parts IH]; intros l; cbn [ipv4_numbers].
  - split; [intro H; injection H as <-; constructor|]. intro H. inversion H. reflexivity.
  - split.
    + destruct (parse_ipv4number p) as [[n|]|] eqn:E; try discriminate. destruct (ipv4_numbers parts) as [l'|]; [|discriminate].
      intro H. injection H as <-. constructor; [now apply number_iff|]. now apply IH.
    + intro H. inversion H as [|? n ? l' H1 H2]; subst. apply number_iff in H1. rewrite H1. apply IH in H2. now rewrite H2.
Qed.
Lemma shifted_max (k : nat) (m : N) : (k <= 3)%nat ->
  ((N.shiftr (2 ^ 32 - 1) (8 * N.of_nat k) <? m)%N = false <-> (m < 256 ^ N.of_nat (4 - k))%N).
Proof. intro K. destruct k as [|[|[|[|k]]]]; [cbn; lia..|lia]. Qed.
Lemma sum_value (bytes : list N) (m : N) : (List.length bytes <= 3)%nat -> (m + ipv4_sum 24 bytes)%N = bytes_value bytes m 3.
Proof.
  intro L. destruct bytes as [|a [|b [|c [|d bytes]]]]; [| | | |cbn in L; lia]; cbn [ipv4_sum bytes_value Nat.sub];
    rewrite ?N.shiftl_mul_pow2; change (24 - 8)%N with 16%N; change (16 - 8)%N with 8%N;
    change (256 ^ N.of_nat 3)%N with 16777216%N; change (256 ^ N.of_nat 2)%N with 65536%N; change (256 ^ N.of_nat 1)%N with 256%N;
    change (2 ^ 24)%N with 16777216%N; change (2 ^ 16)%N with 65536%N; change (2 ^ 8)%N with 256%N; lia.
Qed.
Lemma ipv4_iff (s : str) (n : N) : parse_ipv4addr s = Some n <-> ipv4_reads s n.
Proof.
  unfold parse_ipv4addr. change (match rev (split "." s) with [] :: before => rev before | _ => split "." s end) with (dot_parts s).
  split.
  - destruct (4 <? List.length (dot_parts s))%nat eqn:L; [discriminate|]. destruct (ipv4_numbers (dot_parts s)) as [l|] eqn:E; [|discriminate].
    apply numbers_iff in E. destruct (rev l) as [|m before] eqn:R; [discriminate|].
    assert (El : l = rev before ++ [m]) by (rewrite <- (rev_involutive l), R; reflexivity). subst l.
    apply Forall2_app_inv_r in E. destruct E as (ps & q & F & G & E). inversion G as [|x y q' l' [Hx Hl] G' E1]; subst. inversion G'; subst.
    destruct (N.shiftr _ _ <? m)%N eqn:Sh; [discriminate|]. destruct (existsb _ before) eqn:Ex; [discriminate|].
    intro H. injection H as <-.
    assert (Lb : List.length ps = List.length before) by (rewrite (Forall2_length _ _ _ F); apply rev_length).
    assert (L3 : (List.length ps <= 3)%nat) by (rewrite E, app_length in L; cbn [List.length] in L; lia).
    destruct (dot_parts_inv s) as (t & Es & T); [rewrite E; now destruct ps|]. rewrite E in Es.
    exists ps, x, (rev before), m, t. split; [exact Es|]. split; [exact T|]. split; [exact L3|].
    split; [clear -F; induction F as [|a b la lb [H _] F IH]; constructor; auto|]. split; [exact Hx|].
    split; [|split].
    + apply Forall_forall. intros b I. apply in_rev in I. apply N.nle_gt. intro G1. apply Bool.not_true_iff_false in Ex. apply Ex.
      apply existsb_exists. exists b. split; [exact I|lia].
    + rewrite Lb. apply shifted_max; [lia|exact Sh].
    + symmetry. rewrite <- sum_value by (rewrite rev_length; lia). reflexivity.
  - intros (ps & last & bytes & m & t & -> & T & L & F & Cl & B & M & ->).
    rewrite dot_parts_of; [|now destruct ps| |exact T].
    2:{ apply Forall_app. split; [|constructor; [eapply c_number_dots; eassumption|constructor]].
        clear -F. induction F; constructor; [eapply c_number_dots; eassumption|assumption]. }
    rewrite app_length. cbn [List.length]. replace (4 <? List.length ps + 1)%nat with false by lia.
    assert (Lb : List.length ps = List.length bytes) by exact (Forall2_length _ _ _ F).
    assert (E : ipv4_numbers (ps ++ [last]) = Some (bytes ++ [m])).
    { apply numbers_iff. apply Forall2_app.
      - clear -F B. revert B. induction F as [|p b ps bytes C F IH]; intro B; constructor; inversion B; subst; [split; [exact C|lia]|auto].
      - constructor; [|constructor]. split; [exact Cl|]. eapply N.lt_le_trans; [exact M|]. change (2 ^ 32)%N with (256 ^ 4)%N.
        apply N.pow_le_mono_r; lia. }
    rewrite E, rev_app_distr. cbn [rev app]. rewrite rev_length, rev_involutive.
    rewrite Lb in M, L. replace (N.shiftr _ _ <? m)%N with false by (symmetry; apply shifted_max; assumption).
    replace (existsb _ (rev bytes)) with false.
    + f_equal. now apply sum_value.
    + symmetry. apply Bool.not_true_iff_false. intro Ex. apply existsb_exists in Ex. destruct Ex as (b & I & G). apply in_rev in I.
      rewrite Forall_forall in B. apply B in I. lia.
Qed.
Lemma all_digits_iff (s : str) : forallb is_digit s = true <-> Forall (fun c => (48 <= N_of_ascii c <= 57)%N) s.
Proof.
  rewrite forallb_forall, Forall_forall. unfold is_digit, in_range, code. split; intros H c I; specialize (H c I); lia.
Qed.
(** The last part, or the one before it. *)
Lemma ends_iff (s : str) : ends_in_a_number s = true <-> looks_ipv4 s.
Proof.
  unfold ends_in_a_number. split.
  - pose proof (join_split "." s) as J. destruct (rev (split "." s)) as [|last before] eqn:R; [discriminate|].
    assert (E : split "." s = rev before ++ [last]) by (rewrite <- (rev_involutive (split _ _)), R; reflexivity).
    intro H.
    assert (X : exists b x t, s = b ++ x ++ t /\ (t = [] \/ t = $".") /\ (b = [] \/ exists b', b = b' ++ $".") /\ ~ In "."%char x /\ x <> []
      /\ (forallb is_digit x || match parse_ipv4number x with Some _ => true | None => false end) = true).
    { assert (Y : forall l x, join $"." (l ++ [x]) = match l with [] => x | _ => join $"." l ++ $"." ++ x end).
      { clear. induction l as [|a l IH]; intro x; [reflexivity|]. cbn [app]. destruct l as [|b l]; [reflexivity|].
        cbn [app] in *. rewrite join_cons, IH, join_cons, <- !app_assoc. reflexivity. }
      change ["."%char] with $"." in J. destruct last as [|c last].
      - destruct before as [|x before]; [discriminate|]. cbn [rev] in E. rewrite E, <- app_assoc in J. cbn [app] in J.
        change [x; []] with ([x] ++ [[]]) in J. rewrite app_assoc, Y in J.
        destruct (rev before ++ [x]) as [|p l] eqn:P; [now apply app_eq_nil in P|]. rewrite <- P, Y, app_nil_r in J.
        destruct x as [|c x]; [discriminate|].
        assert (Nd : ~ In "."%char (c :: x)). { apply (split_pieces "." s). rewrite E, <- P. apply in_or_app. left. apply in_or_app. right. now left. }
        destruct (rev before) as [|p' l'].
        + exists [], (c :: x), $".". split; [symmetry; exact J|]. split; [now right|]. split; [now left|]. split; [exact Nd|]. split; [discriminate|exact H].
        + exists (join $"." (p' :: l') ++ $"."), (c :: x), $".". split; [rewrite <- J, <- !app_assoc; reflexivity|]. split; [now right|].
          split; [right; eauto|]. split; [exact Nd|]. split; [discriminate|exact H].
      - rewrite E, Y in J.
        assert (Nd : ~ In "."%char (c :: last)). { apply (split_pieces "." s). rewrite E. apply in_or_app. right. now left. }
        destruct (rev before) as [|p' l'].
        + exists [], (c :: last), []. rewrite app_nil_r. split; [symmetry; exact J|]. split; [now left|]. split; [now left|]. split; [exact Nd|].
          split; [discriminate|exact H].
        + exists (join $"." (p' :: l') ++ $"."), (c :: last), []. split; [rewrite <- J, <- !app_assoc, app_nil_r; reflexivity|]. split; [now left|].
          split; [right; eauto|]. split; [exact Nd|]. split; [discriminate|exact H]. }
    destruct X as (b & x & t & -> & T & B & Nd & N & V). exists b, x, t. split; [reflexivity|]. split; [exact T|]. split; [exact B|].
    split; [exact Nd|]. split; [exact N|]. apply orb_true_iff in V. destruct V as [V|V]; [left; now apply all_digits_iff|right].
    apply number_some. destruct (parse_ipv4number x); [eauto|discriminate].
  - intros (b & x & t & -> & T & B & Nd & N & V).
    assert (Z : forallb is_digit x || match parse_ipv4number x with Some _ => true | None => false end = true).
    { apply orb_true_iff. destruct V as [V|V]; [left; now apply all_digits_iff|right]. apply number_some in V. destruct V as (o & ->). reflexivity. }
    assert (Sx : split "." (b ++ x) = match b with [] => [] | _ => removelast (split "." b) end ++ [x]).
    { destruct B as [-> | (b' & ->)]; [cbn [app]; now rewrite split_nosep|].
      rewrite <- app_assoc. change ($"." ++ x) with ("."%char :: x). rewrite split_app_gen, (split_nosep _ x Nd).
      change $"." with ("."%char :: []). rewrite split_app_gen. cbn [split]. destruct (b' ++ ["."%char]) eqn:Q; [now apply app_eq_nil in Q|].
      rewrite removelast_app by discriminate. cbn [removelast]. now rewrite app_nil_r. }
    rewrite app_assoc. destruct T as [-> | ->].
    + rewrite app_nil_r, Sx, rev_app_distr. cbn [rev app]. destruct x as [|c x]; [congruence|]. exact Z.
    + change $"." with ("."%char :: []). rewrite split_app_gen, Sx. cbn [split]. rewrite !rev_app_distr. cbn [rev app].
      destruct x as [|c x]; [congruence|]. exact Z.
Qed.
