(** Lemmas about HostParse.v: IPv6 addresses. *)
From Verif Require Export HostFacts.

(** ** Groups *)
Definition hex_fold (v : N) (s : str) : N :=
  fold_left (fun a c => match hex_val c with Some d => 16 * a + d | None => a end)%N s v.
Definition no_hex (s : str) : Prop := forall c t, s = c :: t -> hex_val c = None.
Lemma hex_digit_in (c : ascii) : digit_in 16 c = match hex_val c with Some _ => true | None => false end.
Proof. unfold digit_in. destruct (hex_val c) as [d|] eqn:E; [|reflexivity]. apply hex_val_lt in E. lia. Qed.
Lemma group_iff (s : str) (n : N) :
  group s n <-> s <> [] /\ (List.length s <= 4)%nat /\ forallb (digit_in 16) s = true /\ n = hex_fold 0 s.
Proof. unfold group. rewrite numeral_iff. reflexivity. Qed.
Lemma hex_group_app (k : nat) : forall (v : N) (g rest : str), forallb (digit_in 16) g = true -> (List.length g <= k)%nat ->
  List.length g = k \/ no_hex rest -> hex_group k v (g ++ rest) = (hex_fold v g, rest).
Proof.
  induction k as [|k IH]; intros v g rest F L R.
  - destruct g; [reflexivity|cbn in L; lia].
  - destruct g as [|c g]; cbn [app].
    + destruct R as [R|R]; [discriminate|]. destruct rest as [|c rest]; [reflexivity|]. cbn [hex_group]. now rewrite (R c rest eq_refl).
    + cbn [forallb] in F. apply andb_true_iff in F. destruct F as [Fc F]. rewrite hex_digit_in in Fc. cbn [hex_group].
      destruct (hex_val c) as [d|] eqn:E; [|discriminate]. cbn [List.length] in L, R. rewrite IH; [|exact F|lia|destruct R; [left; lia|now right]].
      unfold hex_fold. cbn [fold_left]. now rewrite E.
Qed.
Lemma hex_group_inv (k : nat) : forall (v : N) (s : str), exists g rest, s = g ++ rest /\ forallb (digit_in 16) g = true
  /\ (List.length g <= k)%nat /\ (List.length g = k \/ no_hex rest) /\ hex_group k v s = (hex_fold v g, rest).
Proof.
  induction k as [|k IH]; intros v s.
  - exists [], s. repeat split; auto.
  - destruct s as [|c s].
    + exists [], []. repeat split; auto; [cbn; lia|]. right. intros c t H. discriminate.
    + cbn [hex_group]. destruct (hex_val c) as [d|] eqn:E.
      * destruct (IH (16 * v + d)%N s) as (g & rest & -> & F & L & R & H). exists (c :: g), rest. split; [reflexivity|].
        cbn [forallb List.length]. rewrite hex_digit_in, E, F. split; [reflexivity|]. split; [lia|]. split; [destruct R; [left; lia|now right]|].
        rewrite H. unfold hex_fold. cbn [fold_left]. now rewrite E.
      * exists [], (c :: s). repeat split; auto; [cbn; lia|]. right. intros c' t X. injection X as <- <-. exact E.
Qed.
Lemma group_colon (s : str) (n : N) : group s n -> exists c t, s = c :: t /\ hex_val c <> None /\ Ascii.eqb c ":" = false.
Proof.
  rewrite group_iff. intros (N & _ & F & _). destruct s as [|c s]; [congruence|]. exists c, s. split; [reflexivity|].
  cbn [forallb] in F. apply andb_true_iff in F. destruct F as [F _]. rewrite hex_digit_in in F.
  destruct (hex_val c) as [d|] eqn:E; [|discriminate]. split; [discriminate|].
  destruct (Ascii.eqb c ":") eqn:Q; [|reflexivity]. apply Ascii.eqb_eq in Q. subst c. discriminate.
Qed.
Lemma group_lt (s : str) (n : N) : group s n -> (n < 65536)%N.
Proof.
  intros (_ & L & H). apply numeral_lt in H; [|lia]. eapply N.lt_le_trans; [exact H|]. change 65536%N with (16 ^ N.of_nat 4)%N.
  apply N.pow_le_mono_r; lia.
Qed.

(** ** The loop *)
Inductive v6run : list N -> option nat -> str -> list N * option nat * str -> Prop :=
| run_end acc cp : v6run acc cp [] (acc, cp, [])
| run_colon acc s r : List.length acc <> 8%nat -> v6run (acc ++ [0%N]) (Some (S (List.length acc))) s r -> v6run acc None (":"%char :: s) r
| run_last acc cp g n : List.length acc <> 8%nat -> group g n -> v6run acc cp g (acc ++ [n], cp, [])
| run_more acc cp g n s r : List.length acc <> 8%nat -> group g n -> s <> [] -> v6run (acc ++ [n]) cp s r -> v6run acc cp (g ++ ":"%char :: s) r
| run_quad acc cp g n s : (List.length acc <= 6)%nat -> group g n -> v6run acc cp (g ++ "."%char :: s) (acc, cp, g ++ "."%char :: s).

Lemma run_nil (acc : list N) (cp : option nat) r : v6run acc cp [] r -> r = (acc, cp, []).
Proof.
  intro H. remember ([] : str) as s eqn:E. destruct H as [| |acc cp g n _ G|acc cp g n s r _ _ _ _|acc cp g n s _ _]; try discriminate E; try reflexivity.
  - apply group_colon in G. destruct G as (c & t & -> & _). discriminate.
  - apply app_eq_nil in E. now destruct E.
Qed.
Lemma no_hex_char (c : ascii) (t : str) : hex_val c = None -> no_hex (c :: t).
Proof. intros H c' t' E. now injection E as <- <-. Qed.
Lemma hex_group_group (g rest : str) (n : N) : group g n -> no_hex rest -> hex_group 4 0 (g ++ rest) = (n, rest).
Proof. rewrite group_iff. intros (_ & L & F & ->) R. apply hex_group_app; auto. Qed.
Lemma loop_iff (f : nat) : forall (acc : list N) (cp : option nat) (s : str) r, (List.length s <= f)%nat ->
  (ipv6_loop f acc cp s = Some r <-> v6run acc cp s r).
Proof.
  induction f as [|f IH]; intros acc cp s r L.
  - destruct s; [|cbn in L; lia]. cbn [ipv6_loop]. split; [intro H; injection H as <-; constructor|]. intro H. apply run_nil in H. now subst r.
  - destruct s as [|c s].
    { cbn [ipv6_loop]. split; [intro H; injection H as <-; constructor|]. intro H. apply run_nil in H. now subst r. }
    cbn [List.length] in L. split.
    + cbn [ipv6_loop]. destruct (List.length acc =? 8)%nat eqn:L8; [discriminate|]. apply Nat.eqb_neq in L8.
      destruct (Ascii.eqb c ":") eqn:Ec.
      * apply Ascii.eqb_eq in Ec. subst c. destruct cp; [discriminate|]. intro H. apply IH in H; [|lia]. now constructor.
      * destruct (hex_group_inv 4 0 (c :: s)) as (g & rest & E & F & Lg & R & H). rewrite H.
        assert (G : g <> [] -> group g (hex_fold 0 g)) by (intro Ng; apply group_iff; auto).
        destruct rest as [|d rest].
        { rewrite app_nil_r in E. subst g. intro X. assert (Y : Some (acc ++ [hex_fold 0 (c :: s)], cp, []) = Some r) by (destruct f; exact X).
          injection Y as <-. constructor; [exact L8|]. apply G. discriminate. }
        destruct (Ascii.eqb d ".") eqn:Ed.
        { apply Ascii.eqb_eq in Ed. subst d. destruct (hex_val c) as [x|] eqn:Hx; [|discriminate].
          destruct (6 <? List.length acc)%nat eqn:L6; [discriminate|]. intro X. injection X as <-. rewrite E.
          apply run_quad with (n := hex_fold 0 g); [lia|]. apply G. intros ->. cbn [app] in E. injection E as -> _. discriminate. }
        destruct (Ascii.eqb d ":") eqn:Ed'; [|discriminate]. apply Ascii.eqb_eq in Ed'. subst d.
        destruct rest as [|e rest]; [discriminate|]. intro X.
        assert (Ng : g <> []). { intros ->. cbn [app] in E. injection E as -> _. discriminate. }
        apply IH in X; [|apply (f_equal (@List.length ascii)) in E; rewrite app_length in E; cbn [List.length] in E |- *; lia].
        rewrite E. apply run_more with (n := hex_fold 0 g); auto. discriminate.
    + intro H. cbn [ipv6_loop]. remember (c :: s) as cs eqn:E.
      destruct H as [acc cp|acc s0 r H8 Hr|acc cp g n H8 G|acc cp g n s0 r H8 G Ns Hr|acc cp g n s0 H6 G].
      * discriminate E.
      * injection E as <- <-. apply Nat.eqb_neq in H8. rewrite H8, Ascii.eqb_refl. apply IH; [lia|exact Hr].
      * apply Nat.eqb_neq in H8. rewrite H8. destruct (group_colon g n G) as (c' & t' & X & _ & Nc). rewrite X in E. injection E as -> ->.
        rewrite Nc. pose proof (hex_group_group g [] n G) as Hg. rewrite app_nil_r in Hg. rewrite Hg; [|intros ? ? Q; discriminate Q].
        now destruct f.
      * apply Nat.eqb_neq in H8. rewrite H8. destruct (group_colon g n G) as (c' & t' & X & _ & Nc).
        rewrite (hex_group_group g (":"%char :: s0) n G) by (now apply no_hex_char).
        assert (Ls : (List.length s0 <= f)%nat).
        { apply (f_equal (@List.length ascii)) in E. rewrite app_length in E. cbn [List.length] in E. lia. }
        rewrite X in E. injection E as -> _. rewrite Nc. cbn [Ascii.eqb Bool.eqb].
        destruct s0 as [|e s0]; [congruence|]. now apply IH.
      * assert (H8 : (List.length acc =? 8)%nat = false) by lia. rewrite H8. destruct (group_colon g n G) as (c' & t' & X & Hh & Nc).
        rewrite (hex_group_group g ("."%char :: s0) n G) by (now apply no_hex_char).
        rewrite X in E. injection E as -> _. rewrite Nc. cbn [Ascii.eqb Bool.eqb].
        destruct (hex_val c) as [x|]; [|congruence]. destruct (6 <? List.length acc)%nat eqn:L6; [lia|reflexivity].
Qed.

(** ** What the loop has read *)
Definition quad_like (v4 : str) : Prop := exists g n s, group g n /\ v4 = g ++ "."%char :: s.
Inductive flat (s : str) (l : list N) : str -> Prop :=
| plain_nil : s = [] -> l = [] -> flat s l []
| plain_groups : groups s l -> flat s l []
| plain_quad v4 : quad_like v4 -> s = v4 -> l = [] -> flat s l v4
| plain_both v4 g : quad_like v4 -> groups g l -> s = g ++ ":"%char :: v4 -> flat s l v4.
Definition before_colon (pre : str) (l : list N) : Prop := pre = [] /\ l = [] \/ exists a, groups a l /\ pre = a ++ $":".
Inductive v6read (acc : list N) (cp : option nat) (s : str) : list N * option nat * str -> Prop :=
| read_plain l v4 : flat s l v4 -> v6read acc cp s (acc ++ l, cp, v4)
| read_cut pre l b l' v4 : cp = None -> before_colon pre l -> s = pre ++ ":"%char :: b -> flat b l' v4 ->
    v6read acc cp s (acc ++ l ++ 0%N :: l', Some (S (List.length acc + List.length l)), v4).
Lemma run_read (acc : list N) (cp : option nat) (s : str) (acc' : list N) (cp' : option nat) (v4 : str) :
  v6run acc cp s (acc', cp', v4) -> (List.length acc <= 8)%nat ->
  v6read acc cp s (acc', cp', v4) /\ (List.length acc' <= 8)%nat /\ (v4 <> [] -> List.length acc' <= 6)%nat.
Proof.
  intro H. remember (acc', cp', v4) as r eqn:E. revert acc' cp' v4 E.
  induction H as [acc cp|acc s r H8 Hr IH|acc cp g n H8 G|acc cp g n s r H8 G Ns Hr IH|acc cp g n s H6 G]; intros acc' cp' v4 E L.
  - injection E as <- <- <-. split; [|now split]. replace acc with (acc ++ []) at 2 by apply app_nil_r. now constructor; constructor.
  - specialize (IH acc' cp' v4 E). rewrite app_length in IH. cbn [List.length] in IH. destruct IH as (R & L1 & L2); [lia|]. subst r.
    split; [|now split]. remember (Some (S (List.length acc))) as cp eqn:Ecp. remember (acc', cp', v4) as r eqn:Er.
    destruct R as [l v P|pre l b l' v Q]; [|congruence]. rewrite Ecp, <- app_assoc.
    replace (S (List.length acc)) with (S (List.length acc + List.length (@nil N))) by (cbn; lia).
    apply (read_cut acc None (":"%char :: s) [] [] s l v); auto. left. now split.
  - injection E as <- <- <-. rewrite app_length. cbn [List.length]. split; [|split; [lia|congruence]].
    constructor. apply plain_groups. now constructor.
  - specialize (IH acc' cp' v4 E). rewrite app_length in IH. cbn [List.length] in IH. destruct IH as (R & L1 & L2); [lia|]. subst r.
    split; [|now split]. remember (acc', cp', v4) as r eqn:Er.
    destruct R as [l v P|pre l b l' v Q B Es P].
    + rewrite <- app_assoc. constructor. destruct P as [P1 P2|P|v4' P1 P2 P3|v4' g' P1 P2 P3].
      * congruence.
      * apply plain_groups. now constructor.
      * subst s l. apply plain_both with (g := g); auto. now constructor.
      * subst s. apply plain_both with (g := g ++ $":" ++ g'); auto; [now constructor|]. cbn [app]. rewrite <- !app_assoc. reflexivity.
    + rewrite <- app_assoc. cbn [app]. rewrite app_length. cbn [List.length].
      replace (S (List.length acc + 1 + List.length l)) with (S (List.length acc + List.length (n :: l))) by (cbn [List.length]; lia).
      apply (read_cut acc cp (g ++ ":"%char :: s) (g ++ ":"%char :: pre) (n :: l) b l' v); auto.
      * right. destruct B as [[-> ->]|(a & B & ->)].
        { exists g. split; [now constructor|reflexivity]. }
        exists (g ++ $":" ++ a). split; [now constructor|]. now rewrite <- !app_assoc.
      * rewrite Es, <- app_assoc. reflexivity.
  - injection E as <- <- <-. split; [|split; lia]. replace acc with (acc ++ []) at 2 by apply app_nil_r. constructor.
    apply plain_quad; [|reflexivity|reflexivity]. exists g, n, s. now split.
Qed.
(** Conversely. *)
Lemma groups_ne (s : str) (l : list N) : groups s l -> s <> [].
Proof. destruct 1 as [s n (Ns & _)|s n t l G]; [exact Ns|]. apply group_colon in G. destruct G as (c & u & -> & _). discriminate. Qed.
Lemma groups_run (s : str) (l : list N) : groups s l -> forall acc cp, (List.length acc + List.length l <= 8)%nat ->
  v6run acc cp s (acc ++ l, cp, []).
Proof.
  induction 1 as [s n G|s n t l G H IH]; intros acc cp L; cbn [List.length] in L.
  - apply run_last; [lia|exact G].
  - cbn [app s2b]. apply run_more with (n := n); [lia|exact G| |].
    + now apply groups_ne with (l := l).
    + replace (acc ++ n :: l) with ((acc ++ [n]) ++ l) by (now rewrite <- app_assoc). apply IH. rewrite app_length. cbn [List.length]. lia.
Qed.
Lemma groups_then (a : str) (l : list N) : groups a l -> forall acc cp s r, (List.length acc + List.length l <= 8)%nat -> s <> [] ->
  v6run (acc ++ l) cp s r -> v6run acc cp (a ++ ":"%char :: s) r.
Proof.
  induction 1 as [a n G|a n t l G H IH]; intros acc cp s r L Ns R; cbn [List.length] in L.
  - apply run_more with (n := n); auto. lia.
  - rewrite <- !app_assoc. cbn [app s2b]. apply run_more with (n := n); [lia|exact G| |].
    + intro E. apply app_eq_nil in E. now destruct E.
    + apply IH; [rewrite app_length; cbn [List.length]; lia|exact Ns|]. now rewrite <- app_assoc.
Qed.
Lemma digit_val_lt (c : ascii) : is_digit c = true -> (digit_val c < 10)%N.
Proof. unfold is_digit, digit_val, in_range, code. lia. Qed.
Lemma digit_zero (c : ascii) : is_digit c = true -> (digit_val c = 0%N <-> c = "0"%char).
Proof.
  intro D. split; [|now intros ->]. intro Z. rewrite <- (ascii_N_embedding c). unfold is_digit, digit_val, in_range, code in *.
  replace (N_of_ascii c) with 48%N by lia. reflexivity.
Qed.
Lemma leading_digit (c : ascii) (s : str) : forallb (digit_in 10) (c :: s) = true -> c <> "0"%char ->
  (10 ^ N.of_nat (List.length s) <= radix_value 10 (c :: s))%N.
Proof.
  intros F Z. induction s as [|x s IH] using rev_ind.
  - cbn [List.length N.of_nat N.pow]. change (radix_value 10 [c]) with (match hex_val c with Some d => 10 * 0 + d | None => 0 end)%N.
    cbn [forallb] in F. rewrite andb_true_r, digit_in_ten in F.
    assert (X : hex_val c = Some (digit_val c)) by (unfold hex_val; now rewrite F). rewrite X.
    assert (D : digit_val c <> 0%N) by (intro D; apply Z; now apply digit_zero).
    change (10 ^ 0)%N with 1%N. lia.
  - change (c :: s ++ [x]) with ((c :: s) ++ [x]) in *. rewrite forallb_app in F. apply andb_true_iff in F. destruct F as [F G].
    specialize (IH F). rewrite radix_snoc, app_length. cbn [forallb List.length] in G |- *. rewrite andb_true_r in G. unfold digit_in in G.
    destruct (hex_val x) as [d|]; [|discriminate]. replace (N.of_nat (List.length s + 1)) with (N.succ (N.of_nat (List.length s))) by lia.
    rewrite N.pow_succ_r'. revert IH. generalize (10 ^ N.of_nat (List.length s))%N (radix_value 10 (c :: s)). intros p q IH. lia.
Qed.
Lemma octet_iff (s : str) (n : N) : octet s n <->
  s <> [] /\ (forall t, t <> [] -> s <> "0"%char :: t) /\ forallb is_digit s = true /\ n = radix_value 10 s /\ (n < 256)%N.
Proof. unfold octet. rewrite numeral_iff, forallb_ten. tauto. Qed.
Lemma octet_group (s : str) (n : N) : octet s n -> exists m, group s m.
Proof.
  intro H. apply octet_iff in H. destruct H as (Ns & Z & F & E & L). rewrite <- forallb_ten in F.
  assert (F16 : forallb (digit_in 16) s = true).
  { rewrite forallb_forall in F |- *. intros c I. specialize (F c I). unfold digit_in in *. destruct (hex_val c); lia. }
  exists (radix_value 16 s). split; [exact Ns|]. rewrite numeral_iff. split; [|auto].
  destruct s as [|c s]; [congruence|]. destruct (le_lt_dec (List.length (c :: s)) 4) as [|L4]; [assumption|exfalso].
  assert (C : c <> "0"%char). { intros ->. apply (Z s); [|reflexivity]. intros ->. cbn in L4. lia. }
  pose proof (leading_digit c s F C) as B. cbn [List.length] in L4.
  assert (P : (10 ^ 3 <= 10 ^ N.of_nat (List.length s))%N) by (apply N.pow_le_mono_r; lia). change (10 ^ 3)%N with 1000%N in P. lia.
Qed.
Lemma quad_quad_like (s : str) (l : list N) : quad s l -> quad_like s.
Proof. destruct 1 as [a b c d na nb nc nd Ha]. destruct (octet_group a na Ha) as [m G]. exists a, m. eexists. split; [exact G|]. reflexivity. Qed.
Lemma quad_run (s : str) (l : list N) acc cp : quad s l -> (List.length acc <= 6)%nat -> v6run acc cp s (acc, cp, s).
Proof. intros Q L. apply quad_quad_like in Q. destruct Q as (g & n & t & G & ->). now apply run_quad with (n := n). Qed.
Lemma tail_run (b : str) (l : list N) acc cp : addr_end b l -> (List.length acc + List.length l <= 8)%nat ->
  (v6run acc cp b (acc ++ l, cp, [])) \/ exists l1 v4 q, l = l1 ++ q /\ quad v4 q /\ v6run acc cp b (acc ++ l1, cp, v4).
Proof.
  intros [s k G|s k Q|s k t k' G Q] L.
  - left. now apply groups_run.
  - right. exists [], s, k. split; [reflexivity|]. split; [exact Q|]. rewrite app_nil_r. apply quad_run with (l := k); [exact Q|].
    destruct Q. cbn [List.length] in L. lia.
  - right. exists k, t, k'. split; [reflexivity|]. split; [exact Q|]. rewrite app_length in L. assert (List.length k' = 2%nat) by (now destruct Q).
    apply groups_then with (l := k); [exact G|lia| |].
    + apply quad_quad_like in Q. destruct Q as (g & n & u & _ & ->). intro E. apply app_eq_nil in E. now destruct E.
    + apply quad_run with (l := k'); [exact Q|]. rewrite app_length. lia.
Qed.

(** ** The IPv4 part *)
Definition no_digit_first (s : str) : Prop := forall c t, s = c :: t -> is_digit c = false.
Definition dec_fold (v : N) (s : str) : N := fold_left (fun a c => 10 * a + digit_val c)%N s v.
Lemma dec_fold_le (s : str) : forall v, (v <= dec_fold v s)%N.
Proof. induction s as [|c s IH]; intro v; cbn [dec_fold fold_left]; [lia|]. etransitivity; [|apply IH]. lia. Qed.
Lemma radix_dec_fold (s : str) : forallb is_digit s = true -> radix_value 10 s = dec_fold 0 s.
Proof. intro F. rewrite (radix_ten s F). reflexivity. Qed.
Lemma piece_more (s : str) : forall v n rest, (v < 256)%N ->
  (ipv4_piece (Some v) s = Some (Some n, rest) <->
   exists o, s = o ++ rest /\ forallb is_digit o = true /\ (o = [] \/ v <> 0%N) /\ n = dec_fold v o /\ (n < 256)%N /\ no_digit_first rest).
Proof.
  induction s as [|c s IH]; intros v n rest V.
  - cbn [ipv4_piece]. split.
    + intro H. injection H as <- <-. exists []. repeat split; auto. intros c t E. discriminate.
    + intros (o & E & _ & _ & -> & _). symmetry in E. apply app_eq_nil in E. destruct E as [-> ->]. reflexivity.
  - cbn [ipv4_piece]. destruct (is_digit c) eqn:D.
    + destruct (N.eq_dec v 0) as [-> | Z].
      * split; [discriminate|]. intros (o & E & F & O & _ & _ & R). exfalso. destruct O as [-> | O]; [|congruence]. cbn [app] in E.
        rewrite (R c s) in D; [discriminate|congruence].
      * destruct v as [|p]; [congruence|]. cbv zeta. destruct (255 <? 10 * N.pos p + digit_val c)%N eqn:B.
        { split; [discriminate|]. intros (o & E & F & O & -> & L & R). exfalso. destruct o as [|c' o].
          - cbn [app] in E. rewrite (R c s) in D; [discriminate|congruence].
          - injection E as <- ->. unfold dec_fold in L. cbn [fold_left] in L. pose proof (dec_fold_le o (10 * N.pos p + digit_val c)) as X.
            unfold dec_fold in X. lia. }
        rewrite IH by lia. split.
        { intros (o & -> & F & O & -> & L & R). exists (c :: o). cbn [forallb app]. rewrite D, F. repeat split; auto. }
        { intros (o & E & F & O & -> & L & R). destruct o as [|c' o].
          - cbn [app] in E. rewrite (R c s) in D; [discriminate|congruence].
          - injection E as <- ->. cbn [forallb] in F. rewrite D in F. exists o. repeat split; auto. right. lia. }
    + split.
      * intro H. injection H as <- <-. exists []. repeat split; auto. intros c' t E. now injection E as <- <-.
      * intros (o & E & F & O & -> & L & R). destruct o as [|c' o]; [cbn [app] in E; now rewrite E|].
        injection E as <- ->. cbn [forallb] in F. rewrite D in F. discriminate.
Qed.
Lemma piece_iff (s : str) (n : N) (rest : str) :
  ipv4_piece None s = Some (Some n, rest) <-> exists o, s = o ++ rest /\ octet o n /\ no_digit_first rest.
Proof.
  destruct s as [|c s].
  - cbn [ipv4_piece]. split; [discriminate|]. intros (o & E & (No & _) & _). symmetry in E. apply app_eq_nil in E. now destruct E.
  - cbn [ipv4_piece]. destruct (is_digit c) eqn:D.
    + pose proof (digit_val_lt c D) as Lc. rewrite piece_more by lia. split.
      * intros (o & -> & F & O & -> & L & R). exists (c :: o). split; [reflexivity|]. split; [|exact R]. apply octet_iff.
        assert (Fc : forallb is_digit (c :: o) = true) by (cbn [forallb]; now rewrite D, F).
        split; [discriminate|]. split; [|split; [exact Fc|split; [|exact L]]].
        { intros t Nt E. injection E as -> ->. destruct O as [-> | O]; [congruence|]. now apply O. }
        rewrite (radix_dec_fold _ Fc). unfold dec_fold. cbn [fold_left]. reflexivity.
      * intros (o & E & H & R). apply octet_iff in H. destruct H as (No & Z & F & -> & L). destruct o as [|c' o]; [congruence|].
        injection E as <- ->. exists o. rewrite (radix_dec_fold _ F) in *. cbn [forallb] in F. apply andb_true_iff in F. destruct F as [_ F].
        split; [reflexivity|]. split; [exact F|]. split; [|now split].
        destruct o as [|x o]; [now left|right]. intro Q. apply digit_zero in Q; [|exact D]. subst c. apply (Z (x :: o)); [discriminate|reflexivity].
    + split; [discriminate|]. intros (o & E & H & R). apply octet_iff in H. destruct H as (No & Z & F & _). destruct o as [|c' o]; [congruence|].
      injection E as <- ->. cbn [forallb] in F. rewrite D in F. discriminate.
Qed.
Lemma pieces_step (f : nat) (seen : list N) (s : str) (l : list N) : seen <> [] -> ipv4_pieces f seen s = Some l ->
  s = [] /\ l = seen \/ exists f' o n rest, f = S f' /\ s = "."%char :: o ++ rest /\ (List.length seen < 4)%nat /\ octet o n
    /\ ipv4_pieces f' (seen ++ [n]) rest = Some l.
Proof.
  intros Ns H. destruct s as [|c s]; [left; destruct f; injection H as <-; now split|]. right.
  destruct f as [|f]; [discriminate|]. cbn [ipv4_pieces] in H. destruct seen as [|x seen]; [congruence|].
  destruct ((List.length (x :: seen) <? 4)%nat && Ascii.eqb c ".") eqn:B; [|discriminate]. apply andb_true_iff in B. destruct B as [B E].
  apply Ascii.eqb_eq in E. subst c. destruct (ipv4_piece None s) as [[[n|] rest]|] eqn:P; [|discriminate|discriminate].
  apply piece_iff in P. destruct P as (o & -> & O & _). exists f, o, n, rest.
  split; [reflexivity|]. split; [reflexivity|]. split; [lia|]. now split.
Qed.
Lemma pieces_length (f : nat) : forall (seen : list N) (s : str) (l : list N), (List.length seen <= List.length l)%nat \/ ipv4_pieces f seen s <> Some l.
Proof.
  induction f as [|f IH]; intros seen s l.
  - destruct s; [|right; discriminate]. destruct (list_eq_dec N.eq_dec seen l) as [-> | D]; [left; lia|right]. cbn. congruence.
  - destruct s as [|c s]; [destruct (list_eq_dec N.eq_dec seen l) as [-> | D]; [left; lia|right; cbn; congruence]|].
    cbn [ipv4_pieces]. destruct (match seen with [] => _ | _ => _ end) as [t|]; [|right; discriminate].
    destruct (ipv4_piece None t) as [[[n|] rest]|]; [|right; discriminate|right; discriminate].
    destruct (IH (seen ++ [n]) rest l) as [L|L]; [left|now right]. rewrite app_length in L. cbn [List.length] in L. lia.
Qed.
Lemma no_digit_dot (t : str) : no_digit_first ("."%char :: t).
Proof. intros c u E. now injection E as <- <-. Qed.
Lemma no_digit_nil : no_digit_first [].
Proof. intros c u E. discriminate. Qed.
Lemma pieces_dot (f : nat) (seen : list N) (o rest : str) (n : N) : seen <> [] -> (List.length seen < 4)%nat -> octet o n -> no_digit_first rest ->
  ipv4_pieces (S f) seen ("."%char :: o ++ rest) = ipv4_pieces f (seen ++ [n]) rest.
Proof.
  intros Ns L O R. cbn [ipv4_pieces]. destruct seen as [|x seen]; [congruence|]. assert (B : (List.length (x :: seen) <? 4)%nat = true) by lia.
  rewrite B, Ascii.eqb_refl. cbn [andb]. assert (P : ipv4_piece None (o ++ rest) = Some (Some n, rest)) by (apply piece_iff; eauto). now rewrite P.
Qed.
Lemma quad_iff (s : str) (a b c d : N) : ipv4_pieces (List.length s) [] s = Some [a; b; c; d] <->
  exists oa ob oc od, s = oa ++ "."%char :: ob ++ "."%char :: oc ++ "."%char :: od /\ octet oa a /\ octet ob b /\ octet oc c /\ octet od d.
Proof.
  split.
  - intro H. destruct s as [|x s]; [discriminate|]. cbn [List.length ipv4_pieces] in H.
    destruct (ipv4_piece None (x :: s)) as [[[na|] rest]|] eqn:P; [|discriminate|discriminate]. apply piece_iff in P.
    destruct P as (oa & -> & Oa & _). cbn [app] in H.
    apply pieces_step in H; [|discriminate]. destruct H as [[_ H]|(f1 & ob & nb & r1 & _ & -> & _ & Ob & H)]; [discriminate|]. cbn [app] in H.
    apply pieces_step in H; [|discriminate]. destruct H as [[_ H]|(f2 & oc & nc & r2 & _ & -> & _ & Oc & H)]; [discriminate|]. cbn [app] in H.
    apply pieces_step in H; [|discriminate]. destruct H as [[_ H]|(f3 & od & nd & r3 & _ & -> & _ & Od & H)]; [discriminate|]. cbn [app] in H.
    apply pieces_step in H; [|discriminate]. destruct H as [[-> H]|(f4 & oe & ne & r4 & _ & -> & L & _ & _)]; [|cbn in L; lia].
    injection H as -> -> -> ->. exists oa, ob, oc, od. rewrite app_nil_r. auto.
  - intros (oa & ob & oc & od & -> & Oa & Ob & Oc & Od).
    remember (oa ++ "."%char :: ob ++ "."%char :: oc ++ "."%char :: od) as s eqn:E.
    assert (L : exists f, List.length s = S (S (S (S f)))).
    { exists (List.length s - 4)%nat. subst s. repeat (rewrite app_length; cbn [List.length]).
      destruct Oa as (Na & _). destruct oa; [congruence|]. cbn [List.length]. lia. }
    destruct L as [f ->]. destruct s as [|x s]; [destruct oa; discriminate E|].
    cbn [ipv4_pieces]. rewrite E.
    assert (P : ipv4_piece None (oa ++ "."%char :: ob ++ "."%char :: oc ++ "."%char :: od) = Some (Some a, "."%char :: ob ++ "."%char :: oc ++ "."%char :: od)).
    { apply piece_iff. exists oa. split; [reflexivity|]. split; [exact Oa|apply no_digit_dot]. }
    rewrite P. cbn [app].
    pose proof (pieces_dot (S (S f)) [a] ob ("."%char :: oc ++ "."%char :: od) b) as H1.
    pose proof (pieces_dot (S f) [a; b] oc ("."%char :: od) c) as H2.
    pose proof (pieces_dot f [a; b; c] od [] d) as H3. rewrite app_nil_r in H3. cbn [app] in H1, H2, H3.
    etransitivity; [apply H1|etransitivity; [apply H2|etransitivity; [apply H3|]]]; auto using no_digit_dot, no_digit_nil; try discriminate; cbn [List.length]; try lia.
    now destruct f.
Qed.
Lemma quad_value (s : str) (l : list N) : quad s l <-> exists a b c d, ipv4_pieces (List.length s) [] s = Some [a; b; c; d] /\ l = [256 * a + b; 256 * c + d]%N.
Proof.
  split.
  - intros [oa ob oc od a b c d Ha Hb Hc Hd]. exists a, b, c, d. split; [|reflexivity]. apply quad_iff. exists oa, ob, oc, od. auto.
  - intros (a & b & c & d & H & ->). apply quad_iff in H. destruct H as (oa & ob & oc & od & -> & Ha & Hb & Hc & Hd).
    exact (quad_intro oa ob oc od a b c d Ha Hb Hc Hd).
Qed.

(** ** Addresses *)
Lemma finish_iff (acc : list N) (cp : option nat) (p : list N) : (List.length acc <= 8)%nat ->
  ipv6_finish acc cp = Some p <->
  match cp with
  | None => List.length acc = 8%nat /\ p = acc
  | Some k => p = firstn k acc ++ repeat 0%N (8 - List.length acc) ++ skipn k acc
  end.
Proof.
  intro L. unfold ipv6_finish. destruct cp as [k|]; [split; [intro H; now injection H as <-|now intros ->]|].
  destruct (List.length acc =? 8)%nat eqn:E; split; try discriminate.
  - intro H. injection H as <-. split; [lia|reflexivity].
  - now intros [_ ->].
  - intros [X _]. lia.
Qed.
(** The pieces with the last two of the IPv4 part. *)
Lemma flat_tail (s : str) (l : list N) (v4 : str) (q : list N) : flat s l v4 -> (v4 = [] /\ q = [] \/ quad v4 q) ->
  s = [] /\ l ++ q = [] \/ addr_end s (l ++ q).
Proof.
  intros P Q. destruct P as [-> ->|G|v4 V -> ->|v4 g V G ->].
  - destruct Q as [[_ ->]|Q]; [left; now split|]. apply quad_quad_like in Q. destruct Q as (g & n & s & _ & E). symmetry in E. apply app_eq_nil in E. now destruct E.
  - destruct Q as [[_ ->]|Q].
    + right. rewrite app_nil_r. now constructor.
    + apply quad_quad_like in Q. destruct Q as (g & n & s' & _ & E). symmetry in E. apply app_eq_nil in E. now destruct E.
  - destruct Q as [[-> _]|Q].
    + destruct V as (g & n & s' & _ & E). symmetry in E. apply app_eq_nil in E. now destruct E.
    + right. now apply end_quad.
  - destruct Q as [[-> _]|Q].
    + destruct V as (g' & n & s' & _ & E). symmetry in E. apply app_eq_nil in E. now destruct E.
    + right. exact (end_both g l v4 q G Q).
Qed.
Definition finished (r : list N * option nat * str) (p : list N) : Prop :=
  exists acc cp v4 q, r = (acc, cp, v4) /\ (v4 = [] /\ q = [] \/ quad v4 q) /\ ipv6_finish (acc ++ q) cp = Some p.
Lemma after_loop (acc : list N) (cp : option nat) (t : str) (p : list N) :
  match ipv6_loop (List.length t) acc cp t with
  | None => None
  | Some (acc, cp, []) => ipv6_finish acc cp
  | Some (acc, cp, v4) =>
      match ipv4_pieces (List.length v4) [] v4 with
      | Some [a; b; c; d] => ipv6_finish (acc ++ [256 * a + b; 256 * c + d]%N) cp
      | _ => None
      end
  end = Some p <-> exists r, v6run acc cp t r /\ finished r p.
Proof.
  split.
  - destruct (ipv6_loop (List.length t) acc cp t) as [[[acc' cp'] v4]|] eqn:L; [|discriminate]. apply loop_iff in L; [|lia].
    intro H. exists (acc', cp', v4). split; [exact L|]. destruct v4 as [|x v4].
    + exists acc', cp', [], []. rewrite app_nil_r. auto.
    + destruct (ipv4_pieces (List.length (x :: v4)) [] (x :: v4)) as [[|a [|b [|c [|d [|]]]]]|] eqn:Q; try discriminate.
      exists acc', cp', (x :: v4), [256 * a + b; 256 * c + d]%N. split; [reflexivity|]. split; [|exact H]. right. apply quad_value. eauto 6.
  - intros (r & R & acc' & cp' & v4 & q & -> & Q & F). apply loop_iff with (f := List.length t) in R; [|lia]. rewrite R.
    destruct Q as [[-> ->]|Q]; [now rewrite app_nil_r in F|]. pose proof Q as Q'. apply quad_quad_like in Q'. destruct Q' as (g & n & s & G & E).
    apply quad_value in Q. destruct Q as (a & b & c & d & Q & ->). rewrite Q.
    destruct v4 as [|x v4]; [|exact F]. symmetry in E. apply app_eq_nil in E. now destruct E.
Qed.
Lemma addr_end_ne (s : str) (l : list N) : addr_end s l -> exists c t, s = c :: t /\ c <> ":"%char.
Proof.
  assert (G : forall g n, group g n -> forall u, exists c t, g ++ u = c :: t /\ c <> ":"%char).
  { intros g n G u. apply group_colon in G. destruct G as (c & t & -> & _ & E). exists c, (t ++ u). split; [reflexivity|].
    intros ->. discriminate. }
  assert (GS : forall g l, groups g l -> forall u, exists c t, g ++ u = c :: t /\ c <> ":"%char).
  { intros g k [g' n H|g' n t k' H _] u; [eapply G; exact H|]. rewrite <- app_assoc. eapply G. exact H. }
  intros [g k H|g k H|g k t k' H _].
  - specialize (GS g k H []). now rewrite app_nil_r in GS.
  - apply quad_quad_like in H. destruct H as (g' & n & u & H & ->). eapply G. exact H.
  - eapply GS. exact H.
Qed.
Lemma cut_finish (l l' : list N) (z : nat) : (List.length l + S z + List.length l' = 8)%nat ->
  ipv6_finish (l ++ 0%N :: l') (Some (S (List.length l))) = Some (l ++ repeat 0%N (S z) ++ l').
Proof.
  intro L. unfold ipv6_finish. replace (l ++ 0%N :: l') with ((l ++ [0%N]) ++ l') by (now rewrite <- app_assoc).
  replace (S (List.length l)) with (List.length (l ++ [0%N]) + 0)%nat by (rewrite app_length; cbn [List.length]; lia).
  rewrite firstn_app_2, firstn_O, app_nil_r. rewrite Nat.add_0_r, skipn_app, skipn_all, Nat.sub_diag. cbn [skipn app].
  rewrite !app_length. cbn [List.length]. replace (8 - (List.length l + 1 + List.length l'))%nat with z by lia.
  rewrite <- app_assoc. reflexivity.
Qed.
Lemma addr_end_length (s : str) (l : list N) : addr_end s l -> (2 * List.length l <= List.length s + 1)%nat.
Proof.
  assert (Q : forall t k, quad t k -> List.length k = 2%nat /\ (3 <= List.length t)%nat).
  { intros t k [a b c d na nb nc nd _ _ _ _]. split; [reflexivity|]. rewrite !app_length. change (List.length $".") with 1%nat. lia. }
  assert (G : forall g k, groups g k -> (2 * List.length k <= List.length g + 1)%nat).
  { induction 1 as [g n (Ng & _)|g n t k (Ng & _) H IH].
    - destruct g; [congruence|]. cbn [List.length]. lia.
    - destruct g; [congruence|]. rewrite !app_length. cbn [List.length] in *. change (List.length $":") with 1%nat. lia. }
  intros [g k H|g k H|g k t k' H H'].
  - now apply G.
  - apply Q in H. lia.
  - apply G in H. apply Q in H'. rewrite !app_length. change (List.length $":") with 1%nat. lia.
Qed.
Lemma tail_finished (b : str) (l : list N) acc cp p : b = [] /\ l = [] \/ addr_end b l -> (List.length acc + List.length l <= 8)%nat ->
  ipv6_finish (acc ++ l) cp = Some p -> exists r, v6run acc cp b r /\ finished r p.
Proof.
  intros [[-> ->]|T] L F.
  - exists (acc, cp, []). split; [constructor|]. exists acc, cp, [], []. auto.
  - destruct (tail_run b l acc cp T L) as [R|(l1 & v4 & q & -> & Q & R)].
    + exists (acc ++ l, cp, []). split; [exact R|]. exists (acc ++ l), cp, [], []. rewrite app_nil_r. auto.
    + exists (acc ++ l1, cp, v4). split; [exact R|]. exists (acc ++ l1), cp, v4, q. rewrite <- app_assoc. auto.
Qed.
Lemma quad_room (acc : list N) (v4 : str) (q : list N) : v4 = [] /\ q = [] \/ quad v4 q -> (List.length acc <= 8)%nat ->
  (v4 <> [] -> List.length acc <= 6)%nat -> (List.length (acc ++ q) <= 8)%nat.
Proof.
  intros Q L8 L6. rewrite app_length. destruct Q as [[_ ->]|Q]; [cbn [List.length]; lia|].
  assert (Lq : List.length q = 2%nat) by (now destruct Q). rewrite Lq. apply quad_quad_like in Q.
  assert (N4 : v4 <> []) by (intros ->; destruct Q as (g & n & u & _ & E); symmetry in E; apply app_eq_nil in E; now destruct E).
  specialize (L6 N4). lia.
Qed.
Theorem ipv6_iff (s : str) (p : list N) : parse_ipv6addr s = Some p <-> ipv6_reads s p.
Proof.
  unfold parse_ipv6addr. split.
  - destruct s as [|a [|b s]]; [discriminate|discriminate|]. destruct (Ascii.eqb a ":") eqn:Ea.
    + destruct (Ascii.eqb b ":") eqn:Eb; [|discriminate]. apply Ascii.eqb_eq in Ea, Eb. subst a b. intro H. apply after_loop in H.
      destruct H as (r & R & acc & cp & v4 & q & -> & Q & F). apply run_read in R; [|cbn; lia]. destruct R as (R & L8 & L6).
      remember (acc, cp, v4) as r eqn:Er. remember (Some 1%nat) as c1 eqn:Ec. destruct R as [l v P|pre l b l' v X]; [|congruence].
      injection Er as <- -> ->. subst cp. apply (flat_tail s l v4 q P) in Q as T.
      assert (LQ : (List.length ([0%N] ++ l ++ q) <= 8)%nat).
      { rewrite app_assoc. now apply quad_room with (v4 := v4). }
      cbn [app List.length] in LQ. cbn [app] in F.
      pose proof (cut_finish [] (l ++ q) (7 - List.length (l ++ q))) as C. cbn [List.length app] in C. rewrite C in F by lia. injection F as <-.
      apply (ipv6_short [] [] s (l ++ q) (7 - List.length (l ++ q))); [now left|exact T|]. cbn [List.length]. lia.
    + intro H. apply after_loop in H. destruct H as (r & R & acc & cp & v4 & q & -> & Q & F). apply run_read in R; [|cbn; lia].
      destruct R as (R & L8 & L6).
      assert (LQ : (List.length (acc ++ q) <= 8)%nat).
      { now apply quad_room with (v4 := v4). }
      apply finish_iff in F; [|exact LQ]. remember (acc, cp, v4) as r eqn:Er. destruct R as [l v P|pre l b' l' v _ B E P].
      * injection Er as <- <- ->. cbn [app] in *. destruct F as [F ->]. destruct (flat_tail _ _ _ _ P Q) as [[X _]|T]; [discriminate|].
        now apply ipv6_full.
      * injection Er as <- <- ->. cbn [app List.length plus] in *. destruct (flat_tail _ _ _ _ P Q) as [T|T].
        all: destruct B as [[-> ->]|(g & G & ->)]; [cbn [app] in E; injection E as -> _; discriminate Ea|].
        all: rewrite <- app_assoc in F, LQ; cbn [app] in F, LQ; rewrite app_length in LQ; cbn [List.length] in LQ.
        all: pose proof (cut_finish l (l' ++ q) (7 - List.length l - List.length (l' ++ q))) as C.
        all: apply finish_iff in C; [|rewrite app_length; cbn [List.length]; lia|lia].
        all: rewrite <- F in C; rewrite <- C, E, <- app_assoc.
        all: apply (ipv6_short g l b' (l' ++ q) (7 - List.length l - List.length (l' ++ q))); [now right|auto|lia].
  - intro H. destruct H as [s l T L|a l b l' z A B L].
    + pose proof (addr_end_length s l T) as Ls. destruct (addr_end_ne s l T) as (c & t & -> & Nc). destruct t as [|c' t]; [cbn in Ls; lia|].
      assert (E : Ascii.eqb c ":" = false) by (apply Ascii.eqb_neq; exact Nc). rewrite E. apply after_loop.
      apply tail_finished with (l := l); [now right|cbn; lia|]. apply finish_iff; [cbn; lia|]. now split.
    + destruct A as [[-> ->]|G].
      * cbn [app s2b]. change (Ascii.eqb ":" ":") with true. cbv iota. apply after_loop.
        apply tail_finished with (l := l'); [exact B|cbn [List.length] in *; lia|]. exact (cut_finish [] l' z L).
      * pose proof (addr_end_ne a l (end_groups a l G)) as (c & t & -> & Nc).
        assert (E : Ascii.eqb c ":" = false) by (apply Ascii.eqb_neq; exact Nc).
        destruct (finish_iff (l ++ 0%N :: l') (Some (S (List.length l))) (l ++ repeat 0%N (S z) ++ l')) as [_ _]; [rewrite app_length; cbn [List.length]; lia|].
        assert (R : exists r, v6run [] None ((c :: t) ++ $"::" ++ b) r /\ finished r (l ++ repeat 0%N (S z) ++ l')).
        { destruct (tail_finished b l' (l ++ [0%N]) (Some (S (List.length l))) (l ++ repeat 0%N (S z) ++ l') B) as (r & R & F).
          - rewrite app_length. cbn [List.length]. lia.
          - rewrite <- app_assoc. cbn [app]. now apply cut_finish.
          - exists r. split; [|exact F]. apply groups_then with (l := l); [exact G|cbn [List.length]; lia|discriminate|].
            cbn [app]. apply run_colon; [lia|exact R]. }
        apply after_loop in R. destruct t as [|c' t]; cbn [app s2b] in R |- *; rewrite E; exact R.
Qed.

(** ** The text of an address *)
Lemma hex_lower_val (d : N) : (d < 16)%N -> hex_val (hex_lower d) = Some d.
Proof.
  intro L. assert (E : forallb (fun d => match hex_val (hex_lower d) with Some x => (x =? d)%N | None => false end) (map N.of_nat (seq 0 16)) = true) by reflexivity.
  rewrite forallb_forall in E. specialize (E d). destruct (hex_val (hex_lower d)) as [x|].
  - f_equal. apply N.eqb_eq, E. apply in_map_iff. exists (N.to_nat d). split; [lia|]. apply in_seq. lia.
  - exfalso. assert (X : false = true) by (apply E; apply in_map_iff; exists (N.to_nat d); split; [lia|]; apply in_seq; lia). discriminate.
Qed.
Lemma drop_zeros (s : str) : radix_value 16 (drop_while (Ascii.eqb "0") s) = radix_value 16 s.
Proof.
  induction s as [|c s IH]; [reflexivity|]. cbn [drop_while]. destruct (Ascii.eqb "0" c) eqn:E; [|reflexivity].
  apply Ascii.eqb_eq in E. subst c. rewrite IH. reflexivity.
Qed.
Lemma drop_while_forallb (f g : ascii -> bool) (s : str) : forallb g s = true -> forallb g (drop_while f s) = true.
Proof.
  induction s as [|c s IH]; intro F; [reflexivity|]. cbn [drop_while]. destruct (f c); [|exact F]. apply IH. cbn [forallb] in F.
  now apply andb_true_iff in F.
Qed.
Lemma drop_while_length (f : ascii -> bool) (s : str) : (List.length (drop_while f s) <= List.length s)%nat.
Proof. induction s as [|c s IH]; cbn [drop_while]; [lia|]. destruct (f c); cbn [List.length]; lia. Qed.
Lemma hex_text_group (n : N) : (n < 65536)%N -> group (hex_text n) n.
Proof.
  intro L. unfold hex_text. set (s := map hex_lower _).
  assert (B : forall k, (n / k mod 16 < 16)%N) by (intro k; apply N.mod_lt; lia).
  assert (B0 : (n mod 16 < 16)%N) by (apply N.mod_lt; lia).
  assert (F : forallb (digit_in 16) s = true).
  { unfold s. cbn [map forallb]. rewrite !hex_digit_in, !hex_lower_val by auto. reflexivity. }
  assert (V : radix_value 16 s = n).
  { unfold s, radix_value. cbn [map fold_left]. rewrite !hex_lower_val by auto. zify. Z.to_euclidean_division_equations. lia. }
  destruct (drop_while (Ascii.eqb "0") s) as [|c t] eqn:D.
  - split; [discriminate|]. split; [cbn; lia|]. apply numeral_iff. split; [reflexivity|]. rewrite <- V, <- drop_zeros, D. reflexivity.
  - split; [discriminate|]. split; [rewrite <- D; apply (drop_while_length (Ascii.eqb "0") s)|]. apply numeral_iff.
    rewrite <- D, drop_zeros. split; [now apply drop_while_forallb|now symmetry].
Qed.
Definition zero_at (p : list N) (st n : nat) : Prop := exists a b, p = a ++ repeat 0%N n ++ b /\ List.length a = st.
Definition runs_ok (p : list N) (best : option (nat * nat)) : Prop := match best with None => True | Some (st, n) => zero_at p st n end.
Lemma repeat_snoc (n : nat) : repeat 0%N (S n) = repeat 0%N n ++ [0%N].
Proof. exact (repeat_cons n 0%N). Qed.
Lemma finish_ok (pre p : list N) (best : option (nat * nat)) (start : option nat) :
  runs_ok (pre ++ p) best ->
  match start with None => True | Some st => exists a, pre = a ++ repeat 0%N (List.length pre - st) /\ List.length a = st end ->
  runs_ok (pre ++ p) (finish_sequence best start (List.length pre)).
Proof.
  intros B S. unfold finish_sequence. destruct start as [st|]; [|exact B]. destruct (_ <? _)%nat; [|exact B].
  destruct S as (a & E & La). exists a, p. split; [|exact La]. now rewrite app_assoc, <- E.
Qed.
Lemma zero_runs_ok (p : list N) : forall (pre : list N) (best : option (nat * nat)) (start : option nat),
  runs_ok (pre ++ p) best ->
  match start with None => True | Some st => (st <= List.length pre)%nat /\ exists a, pre = a ++ repeat 0%N (List.length pre - st) /\ List.length a = st end ->
  runs_ok (pre ++ p) (zero_runs best start (List.length pre) p).
Proof.
  induction p as [|x p IH]; intros pre best start B St.
  - cbn [zero_runs]. apply finish_ok; [exact B|]. destruct start; [apply St|exact I].
  - assert (P : S (List.length pre) = List.length (pre ++ [x])) by (rewrite app_length; cbn [List.length]; lia).
    assert (Q : pre ++ x :: p = (pre ++ [x]) ++ p) by (now rewrite <- app_assoc).
    cbn [zero_runs]. destruct (x =? 0)%N eqn:X.
    + apply N.eqb_eq in X. subst x. rewrite P, Q. apply IH; [now rewrite <- Q|]. destruct start as [st|].
      * destruct St as (L & a & E & La). split; [lia|]. exists a. split; [|exact La]. rewrite <- P.
        replace (S (List.length pre) - st)%nat with (S (List.length pre - st)) by lia.
        rewrite repeat_snoc, app_assoc, <- E. reflexivity.
      * split; [lia|]. exists pre. split; [|reflexivity]. rewrite <- P. replace (S (List.length pre) - List.length pre)%nat with 1%nat by lia. reflexivity.
    + rewrite P, Q. apply IH; [|exact I]. rewrite <- Q. apply finish_ok; [exact B|]. destruct start; [apply St|exact I].
Qed.
Lemma longest_ok (p : list N) (a e : nat) : longest_zero_sequence p = Some (a, e) ->
  exists l n r, p = l ++ repeat 0%N (S n) ++ r /\ List.length l = a /\ e = (a + S n)%nat.
Proof.
  unfold longest_zero_sequence. pose proof (zero_runs_ok p [] None None I I) as H. cbn [app List.length] in H.
  destruct (zero_runs None None 0 p) as [[st n]|]; [|discriminate]. destruct (n <? 2)%nat eqn:L; [discriminate|]. intro E. injection E as <- <-.
  destruct H as (l & r & -> & Ll). exists l, (n - 1)%nat, r. replace (S (n - 1)) with n by lia. auto.
Qed.
Lemma write_groups (v6run : option (nat * nat)) (p : list N) : forall i, p <> [] -> (i + List.length p = 8)%nat ->
  Forall (fun n => (n < 65536)%N) p -> match v6run with None => True | Some (_, e) => (e <= i)%nat end -> groups (write_ipv6 v6run i p) p.
Proof.
  induction p as [|x p IH]; intros i Np L F R; [congruence|]. inversion F as [|x' p' Hx Hp]; subst. cbn [List.length] in L.
  assert (W : write_ipv6 v6run i (x :: p) = hex_text x ++ (if (i <? 7)%nat then $":" else []) ++ write_ipv6 v6run (S i) p).
  { cbn [write_ipv6]. destruct v6run as [[a e]|]; [|reflexivity]. assert (C : (a <=? i)%nat && (i <? e)%nat = false) by lia. now rewrite C. }
  rewrite W. destruct p as [|y p].
  - cbn [List.length] in L. assert (C : (i <? 7)%nat = false) by lia. rewrite C. cbn [app write_ipv6]. rewrite app_nil_r.
    constructor. now apply hex_text_group.
  - cbn [List.length] in L. assert (C : (i <? 7)%nat = true) by lia. rewrite C.
    apply groups_more; [now apply hex_text_group|]. apply IH; [discriminate|cbn [List.length]; lia|exact Hp|]. destruct v6run as [[a e]|]; [lia|exact I].
Qed.
Lemma write_before (st e : nat) (p r : list N) : forall i, p <> [] -> (i + List.length p = st)%nat -> (st <= 7)%nat ->
  Forall (fun n => (n < 65536)%N) p ->
  exists g, groups g p /\ write_ipv6 (Some (st, e)) i (p ++ r) = g ++ $":" ++ write_ipv6 (Some (st, e)) st r.
Proof.
  induction p as [|x p IH]; intros i Np L S7 F; [congruence|]. inversion F as [|x' p' Hx Hp]; subst x' p'. cbn [List.length] in L.
  cbn [app write_ipv6]. assert (C : (st <=? i)%nat && (i <? e)%nat = false) by lia. rewrite C. clear C.
  assert (C : (i <? 7)%nat = true) by lia. rewrite C. destruct p as [|y p].
  - exists (hex_text x). split; [constructor; now apply hex_text_group|]. cbn [app List.length] in *. replace (S i) with st by lia. reflexivity.
  - destruct (IH (S i)) as (g & G & W); [discriminate|cbn [List.length] in *; lia|exact S7|exact Hp|]. exists (hex_text x ++ $":" ++ g).
    split; [constructor; [now apply hex_text_group|exact G]|]. rewrite W. now rewrite <- !app_assoc.
Qed.
Lemma write_inside (st e : nat) (r : list N) (n : nat) : forall i, (st < i)%nat -> (i + n <= e)%nat ->
  write_ipv6 (Some (st, e)) i (repeat 0%N n ++ r) = write_ipv6 (Some (st, e)) (i + n) r.
Proof.
  induction n as [|n IH]; intros i A B; [now rewrite Nat.add_0_r|]. cbn [repeat app write_ipv6].
  assert (C : (st <=? i)%nat && (i <? e)%nat = true) by lia. rewrite C. assert (D : (i =? st)%nat = false) by lia. rewrite D. cbn [app].
  rewrite IH by lia. f_equal. lia.
Qed.
Lemma write_zeros (st : nat) (r : list N) (n : nat) :
  write_ipv6 (Some (st, st + S n)%nat) st (repeat 0%N (S n) ++ r)
  = (if (st =? 0)%nat then $"::" else $":") ++ write_ipv6 (Some (st, st + S n)%nat) (st + S n) r.
Proof.
  cbn [repeat app write_ipv6]. assert (C : (st <=? st)%nat && (st <? st + S n)%nat = true) by lia. rewrite C, Nat.eqb_refl. f_equal.
  rewrite write_inside by lia. f_equal. lia.
Qed.
Definition pieces_ok (p : list N) : Prop := List.length p = 8%nat /\ Forall (fun n => (n < 65536)%N) p.
Lemma ipv6_text_reads (p : list N) : pieces_ok p -> ipv6_reads (ipv6_text p) p.
Proof.
  intros [L F]. unfold ipv6_text. destruct (longest_zero_sequence p) as [[a e]|] eqn:Z.
  - apply longest_ok in Z. destruct Z as (l & n & r & -> & La & ->). rewrite !app_length, repeat_length in L.
    apply Forall_app in F. destruct F as [Fl F]. apply Forall_app in F. destruct F as [_ Fr].
    assert (B : write_ipv6 (Some (a, a + S n)%nat) (a + S n) r = [] /\ r = [] \/ addr_end (write_ipv6 (Some (a, a + S n)%nat) (a + S n) r) r).
    { destruct r as [|x r]; [left; now split|right]. apply end_groups. apply write_groups; [discriminate|lia|exact Fr|lia]. }
    destruct l as [|x l].
    + cbn [List.length] in La. subst a. cbn [app]. rewrite write_zeros. change ((0 =? 0)%nat) with true. cbv iota.
      apply (ipv6_short [] [] _ r n); [now left|exact B|lia].
    + destruct (write_before a (a + S n) (x :: l) (repeat 0%N (S n) ++ r) 0) as (g & G & W); [discriminate|lia|lia|exact Fl|].
      rewrite W, write_zeros. assert (C : (a =? 0)%nat = false) by (cbn [List.length] in La; lia). rewrite C.
      apply (ipv6_short g (x :: l) _ r n); [now right|exact B|lia].
  - apply ipv6_full; [|exact L]. apply end_groups. apply write_groups; auto. intros ->. discriminate.
Qed.
Lemma numeral_octet (s : str) (n : N) : octet s n -> (n < 256)%N.
Proof. now intros (_ & _ & _ & L). Qed.
Lemma ipv6_reads_ok (s : str) (p : list N) : ipv6_reads s p -> pieces_ok p.
Proof.
  assert (G : forall g l, groups g l -> Forall (fun n => (n < 65536)%N) l).
  { induction 1 as [g n H|g n t l H _ IH]; constructor; auto; now apply group_lt in H. }
  assert (Q : forall t l, quad t l -> Forall (fun n => (n < 65536)%N) l).
  { intros t l [a b c d na nb nc nd Ha Hb Hc Hd]. apply numeral_octet in Ha, Hb, Hc, Hd. repeat constructor; lia. }
  assert (T : forall t l, addr_end t l -> Forall (fun n => (n < 65536)%N) l).
  { intros t l [g k H|g k H|g k t' k' H H']; eauto. apply Forall_app. split; eauto. }
  intros [s' l H L|a l b l' z A B L].
  - split; eauto.
  - split; [rewrite !app_length, repeat_length; lia|]. apply Forall_app. split; [|apply Forall_app; split].
    + destruct A as [[_ ->]|A]; eauto.
    + apply Forall_forall. intros x I. apply repeat_spec in I. subst x. reflexivity.
    + destruct B as [[_ ->]|B]; eauto.
Qed.
Lemma ipv6_fun (s : str) (p q : list N) : ipv6_reads s p -> ipv6_reads s q -> p = q.
Proof. rewrite <- !ipv6_iff. congruence. Qed.
