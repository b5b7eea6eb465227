(** Lemmas about HostParse.v: the text of a host. *)
From Verif Require Export NameFacts.
From Verif Require Import SpecFacts LineFacts TargetFacts SpecMore SignMore.

(** ** Sequences of zeros *)
Definition zs (p : list N) (k n : nat) : Prop := forall j, (k <= j < k + n)%nat -> nth j p 1%N = 0%N.
Lemma zs_zeros_at (p : list N) (k n : nat) : zeros_at p k n -> zs p k n.
Proof.
  intros (a & b & -> & <-) j J. rewrite app_nth2 by lia. rewrite app_nth1 by (rewrite repeat_length; lia).
  assert (I : In (nth (j - List.length a) (repeat 0%N n) 1%N) (repeat 0%N n)) by (apply nth_In; rewrite repeat_length; lia).
  now apply repeat_spec in I.
Qed.
Lemma zs_app (p q : list N) (k n : nat) : (k + n <= List.length p)%nat -> (zs (p ++ q) k n <-> zs p k n).
Proof. intro L. unfold zs. split; intros H j J; specialize (H j J); [rewrite app_nth1 in H by lia|rewrite app_nth1 by lia]; exact H. Qed.
Lemma zs_bound (p : list N) (k n : nat) : (1 <= n)%nat -> zs p k n -> (k + n <= List.length p)%nat.
Proof.
  intros L H. destruct (le_lt_dec (k + n) (List.length p)) as [|G]; [assumption|exfalso].
  specialize (H (k + n - 1)%nat). rewrite nth_overflow in H by lia. discriminate H. lia.
Qed.
Definition beaten (best : option (nat * nat)) (k m : nat) : Prop :=
  match best with Some (b, n) => (m < n \/ m = n /\ b <= k)%nat | None => False end.
Record seen (pre : list N) (best : option (nat * nat)) (start : option nat) : Prop := Seen {
  sn_all : forall k m, (1 <= m)%nat -> zs pre k m -> beaten best k m \/ exists st, start = Some st /\ (st <= k)%nat;
  sn_last : forall k m, (1 <= m)%nat -> zs pre k m -> (k + m)%nat = List.length pre -> exists st, start = Some st /\ (st <= k)%nat;
  sn_start : forall st, start = Some st -> (st < List.length pre)%nat;
  sn_best : forall b n, best = Some (b, n) -> (b + n <= match start with Some st => st | None => List.length pre end)%nat
}.
Lemma seen_finish (pre : list N) (best : option (nat * nat)) (start : option nat) : seen pre best start ->
  forall k m, (1 <= m)%nat -> zs pre k m -> beaten (finish_sequence best start (List.length pre)) k m.
Proof.
  intros [A _ S B] k m M Z. pose proof (zs_bound _ _ _ M Z) as L. unfold finish_sequence. destruct (A k m M Z) as [X|(st & -> & K)].
  - destruct start as [st|]; [|exact X]. destruct best as [[b n]|]; [|destruct X]. cbn [beaten] in X.
    destruct (n <? List.length pre - st)%nat eqn:E; cbn [beaten]; [left; lia|exact X].
  - destruct best as [[b n]|].
    + specialize (B b n eq_refl). cbn in B. destruct (n <? List.length pre - st)%nat eqn:E; cbn [beaten]; lia.
    + specialize (S st eq_refl). destruct (0 <? List.length pre - st)%nat eqn:E; cbn [beaten]; lia.
Qed.
Lemma finish_end (pre : list N) (best : option (nat * nat)) (start : option nat) : seen pre best start ->
  forall b n, finish_sequence best start (List.length pre) = Some (b, n) -> (b + n <= List.length pre)%nat.
Proof.
  intros [_ _ S B] b n. unfold finish_sequence. destruct start as [st|]; [|intro E; now apply (B b n) in E].
  specialize (S st eq_refl). destruct (_ <? _)%nat.
  - intro E. injection E as <- <-. lia.
  - intro E. apply (B b n) in E. lia.
Qed.
Lemma zero_runs_seen (p : list N) : forall (pre : list N) (best : option (nat * nat)) (start : option nat), seen pre best start ->
  forall k m, (1 <= m)%nat -> zs (pre ++ p) k m -> beaten (zero_runs best start (List.length pre) p) k m.
Proof.
  induction p as [|x p IH]; intros pre best start H k m M Z.
  - rewrite app_nil_r in Z. cbn [zero_runs]. now apply seen_finish.
  - assert (P : S (List.length pre) = List.length (pre ++ [x])) by (rewrite app_length; cbn [List.length]; lia).
    assert (Q : pre ++ x :: p = (pre ++ [x]) ++ p) by (now rewrite <- app_assoc).
    rewrite Q in Z. cbn [zero_runs]. destruct (x =? 0)%N eqn:X; rewrite P; apply IH; try exact Z; try exact M.
    + apply N.eqb_eq in X. subst x.
      set (start' := match start with None => Some (List.length pre) | _ => start end).
      assert (K : forall k m, (1 <= m)%nat -> zs (pre ++ [0%N]) k m -> (k + m)%nat = S (List.length pre) -> exists st, start' = Some st /\ (st <= k)%nat).
      { intros k' m' M' Z' E. destruct (Nat.eq_dec m' 1) as [-> | Nm].
        - unfold start'. destruct start as [st|]; [exists st|exists (List.length pre)]; (split; [reflexivity|]); [pose proof (sn_start _ _ _ H st eq_refl); lia|lia].
        - destruct (sn_last _ _ _ H k' (m' - 1)%nat) as (st & -> & Le); [lia| |lia|unfold start'; eauto].
          apply (zs_app pre [0%N]); [lia|]. intros j J. apply Z'. lia. }
      split.
      * intros k' m' M' Z'. pose proof (zs_bound _ _ _ M' Z') as L. rewrite <- P in L. destruct (Nat.eq_dec (k' + m') (S (List.length pre))) as [E|Ne].
        { right. now apply K with (m := m'). }
        apply zs_app in Z'; [|lia]. destruct (sn_all _ _ _ H k' m' M' Z') as [Y|(st & -> & Y)]; [now left|right; unfold start'; eauto].
      * intros k' m' M' Z' E. rewrite <- P in E. now apply K with (m := m').
      * intros st E. rewrite <- P. unfold start' in E. destruct start as [st'|]; injection E as <-; [pose proof (sn_start _ _ _ H st' eq_refl); lia|lia].
      * intros b n E. pose proof (sn_best _ _ _ H b n E) as Y. unfold start'. destruct start; lia.
    + assert (K : forall k m, (1 <= m)%nat -> zs (pre ++ [x]) k m -> (k + m <= List.length pre)%nat).
      { intros k' m' M' Z'. pose proof (zs_bound _ _ _ M' Z') as L. rewrite <- P in L. destruct (Nat.eq_dec (k' + m') (S (List.length pre))) as [E|Ne]; [|lia].
        exfalso. specialize (Z' (List.length pre)). rewrite app_nth2, Nat.sub_diag in Z' by lia. cbn [nth] in Z'.
        assert (X0 : x = 0%N) by (apply Z'; lia). apply N.eqb_neq in X. contradiction. }
      split.
      * intros k' m' M' Z'. left. pose proof (K k' m' M' Z') as L. apply zs_app in Z'; [|exact L]. now apply seen_finish.
      * intros k' m' M' Z' E. pose proof (K k' m' M' Z') as L. lia.
      * discriminate.
      * intros b n E. cbn iota. rewrite <- P. apply (finish_end _ _ _ H) in E. lia.
Qed.
Lemma longest_first (p : list N) (k m : nat) : zeros_at p k m ->
  match longest_zero_sequence p with
  | Some (a, e) => (m < e - a \/ m = e - a /\ a <= k)%nat
  | None => (m < 2)%nat
  end.
Proof.
  intro Z. destruct (Nat.eq_dec m 0) as [-> | Nm].
  { destruct (longest_zero_sequence p) as [[a e]|] eqn:E; [|lia]. apply longest_ok in E. destruct E as (l & n & r & _ & _ & ->). lia. }
  apply zs_zeros_at in Z. assert (S : seen [] None None).
  { split; [intros k' m' M Z' ..|discriminate|discriminate]; apply zs_bound in Z'; cbn in Z'; lia. }
  pose proof (zero_runs_seen p [] None None S k m) as B. cbn [app List.length] in B. specialize (B ltac:(lia) Z). unfold longest_zero_sequence.
  destruct (zero_runs None None 0 p) as [[b n]|]; [|destruct B]. cbn [beaten] in B. destruct (n <? 2)%nat eqn:E; lia.
Qed.

(** ** The text is the one of RFC 5952 *)
Lemma hex_text_short (n : N) : (n < 65536)%N -> short_group (hex_text n) n.
Proof.
  intro L. split; [now apply hex_text_group|]. split.
  - intros t Nt E. unfold hex_text in E. set (s := map hex_lower _) in E. clearbody s.
    assert (D : forall t, drop_while (Ascii.eqb "0") s <> "0"%char :: t).
    { clear. induction s as [|c s IH]; intros t E; cbn [drop_while] in E; [discriminate|]. destruct (Ascii.eqb "0" c) eqn:X; [now apply IH in E|].
      injection E as -> _. discriminate X. }
    destruct (drop_while (Ascii.eqb "0") s) as [|c u]; [injection E as <-; congruence|]. now apply D in E.
  - eapply Forall_impl; [|apply hex_text_chars]. intros c [X|X]; lia.
Qed.
Lemma write_short_groups (r : option (nat * nat)) (p : list N) : forall i, p <> [] -> (i + List.length p = 8)%nat ->
  Forall (fun n => (n < 65536)%N) p -> match r with None => True | Some (_, e) => (e <= i)%nat end -> short_groups (write_ipv6 r i p) p.
Proof.
  induction p as [|x p IH]; intros i Np L F R; [congruence|]. inversion F as [|x' p' Hx Hp]; subst. cbn [List.length] in L.
  assert (W : write_ipv6 r i (x :: p) = hex_text x ++ (if (i <? 7)%nat then $":" else []) ++ write_ipv6 r (S i) p).
  { cbn [write_ipv6]. destruct r as [[a e]|]; [|reflexivity]. assert (C : (a <=? i)%nat && (i <? e)%nat = false) by lia. now rewrite C. }
  rewrite W. destruct p as [|y p].
  - cbn [List.length] in L. assert (C : (i <? 7)%nat = false) by lia. rewrite C. cbn [app write_ipv6]. rewrite app_nil_r.
    constructor. now apply hex_text_short.
  - cbn [List.length] in L. assert (C : (i <? 7)%nat = true) by lia. rewrite C.
    apply short_more; [now apply hex_text_short|]. apply IH; [discriminate|cbn [List.length]; lia|exact Hp|]. destruct r as [[a e]|]; [lia|exact I].
Qed.
Lemma write_short_before (st e : nat) (p r : list N) : forall i, p <> [] -> (i + List.length p = st)%nat -> (st <= 7)%nat ->
  Forall (fun n => (n < 65536)%N) p ->
  exists g, short_groups g p /\ write_ipv6 (Some (st, e)) i (p ++ r) = g ++ $":" ++ write_ipv6 (Some (st, e)) st r.
Proof.
  induction p as [|x p IH]; intros i Np L S7 F; [congruence|]. inversion F as [|x' p' Hx Hp]; subst x' p'. cbn [List.length] in L.
  cbn [app write_ipv6]. assert (C : (st <=? i)%nat && (i <? e)%nat = false) by lia. rewrite C. clear C.
  assert (C : (i <? 7)%nat = true) by lia. rewrite C. destruct p as [|y p].
  - exists (hex_text x). split; [constructor; now apply hex_text_short|]. cbn [app List.length] in *. replace (S i) with st by lia. reflexivity.
  - destruct (IH (S i)) as (g & G & W); [discriminate|cbn [List.length] in *; lia|exact S7|exact Hp|]. exists (hex_text x ++ $":" ++ g).
    split; [constructor; [now apply hex_text_short|exact G]|]. rewrite W. now rewrite <- !app_assoc.
Qed.
Lemma ipv6_text_written (p : list N) : pieces_ok p -> ipv6_written p (ipv6_text p).
Proof.
  intros [L F]. unfold ipv6_text. pose proof (longest_first p) as M. destruct (longest_zero_sequence p) as [[a e]|] eqn:Z.
  - assert (E2 : (2 <= e - a)%nat). { unfold longest_zero_sequence in Z. destruct (zero_runs None None 0 p) as [[st n]|]; [|discriminate]. destruct (n <? 2)%nat eqn:E; [discriminate|]. injection Z as <- <-. lia. }
    apply longest_ok in Z. destruct Z as (l & n & r & Ep & La & ->). pose proof L as L'. pose proof F as F'. rewrite Ep in L', F'. rewrite !app_length, repeat_length in L'.
    apply Forall_app in F'. destruct F' as [Fl F']. apply Forall_app in F'. destruct F' as [_ Fr].
    replace (a + S n - a)%nat with (S n) in * by lia.
    assert (B : write_ipv6 (Some (a, a + S n)%nat) (a + S n) r = [] /\ r = [] \/ short_groups (write_ipv6 (Some (a, a + S n)%nat) (a + S n) r) r).
    { destruct r as [|x r]; [left; now split|right]. apply write_short_groups; [discriminate|lia|exact Fr|lia]. }
    rewrite <- La in M. assert (T : forall g, (g = [] /\ l = [] \/ short_groups g l) -> ipv6_written p (g ++ $"::" ++ write_ipv6 (Some (a, a + S n)%nat) (a + S n) r)).
    { intros g G. now apply (written_short p g l (S n) _ r). }
    rewrite Ep at 2. destruct l as [|x l].
    + cbn [List.length] in La. subst a. cbn [app]. rewrite write_zeros. change ((0 =? 0)%nat) with true. cbv iota. apply (T []). now left.
    + destruct (write_short_before a (a + S n) (x :: l) (repeat 0%N (S n) ++ r) 0) as (g & G & W); [discriminate|lia|lia|exact Fl|].
      rewrite W, write_zeros. assert (C : (a =? 0)%nat = false) by (cbn [List.length] in La; lia). rewrite C. apply (T g). now right.
  - apply written_full; [|exact M]. apply write_short_groups; auto. intros ->. discriminate.
Qed.

(** ** There is only one *)
Lemma numeral_last (a : str) (c : ascii) (n : N) : numeral 16 (a ++ [c]) n -> exists m d, n = (16 * m + d)%N /\ numeral 16 a m /\ hex_digit c d /\ (d < 16)%N.
Proof.
  intro H. apply numeral_iff in H. destruct H as [F ->]. rewrite forallb_app in F. apply andb_true_iff in F. destruct F as [F G].
  cbn [forallb] in G. rewrite andb_true_r, hex_digit_in in G. rewrite radix_snoc. destruct (hex_val c) as [d|] eqn:E; [|discriminate].
  exists (radix_value 16 a), d. split; [reflexivity|]. split; [now apply numeral_iff|]. split; [now apply hex_digit_iff|now apply hex_val_lt in E].
Qed.
Lemma numeral_nz (s : str) : forall n, (forall t, s <> "0"%char :: t) -> numeral 16 s n -> n = 0%N -> s = [].
Proof.
  induction s as [|x s IH] using rev_ind; intros n Z H E; [reflexivity|exfalso]. apply numeral_last in H. destruct H as (m & d & -> & H & D & _).
  assert (m = 0%N) as -> by lia. assert (d = 0%N) as -> by lia. apply IH in H; [|intros t ->; now apply (Z (t ++ [x]))|reflexivity]. subst s.
  apply (Z []). cbn [app]. f_equal. rewrite <- (ascii_N_embedding x). replace (N_of_ascii x) with 48%N; [reflexivity|]. unfold hex_digit in D. lia.
Qed.
Lemma numeral_unique (a : str) : forall (b : str) (n : N), (forall t, a <> "0"%char :: t) -> (forall t, b <> "0"%char :: t) ->
  Forall (fun c => ~ (65 <= N_of_ascii c <= 70)%N) a -> Forall (fun c => ~ (65 <= N_of_ascii c <= 70)%N) b ->
  numeral 16 a n -> numeral 16 b n -> a = b.
Proof.
  induction a as [|x a IH] using rev_ind; intros b n Za Zb Ca Cb Ha Hb.
  - apply numeral_iff in Ha. destruct Ha as [_ ->]. symmetry. now apply (numeral_nz b 0).
  - destruct b as [|y b _] using rev_ind.
    + apply numeral_iff in Hb. destruct Hb as [_ ->]. now apply (numeral_nz _ 0).
    + apply numeral_last in Ha, Hb. destruct Ha as (m & d & -> & Ha & Da & La). destruct Hb as (m' & d' & E & Hb & Db & Lb).
      assert (d' = d) as -> by lia. assert (m' = m) as -> by lia. apply Forall_app in Ca, Cb. destruct Ca as [Ca Cx], Cb as [Cb Cy].
      inversion Cx as [|x' l Nx _]; subst. inversion Cy as [|y' l Ny _]; subst.
      f_equal; [apply IH with (n := m); auto|].
      * intros t ->. now apply (Za (t ++ [x])).
      * intros t ->. now apply (Zb (t ++ [y])).
      * f_equal. rewrite <- (ascii_N_embedding x), <- (ascii_N_embedding y). f_equal. unfold hex_digit in Da, Db. lia.
Qed.
Lemma short_group_zero (s : str) : short_group s 0 -> s = $"0".
Proof.
  intros ((Ns & _ & H) & Z & _). destruct s as [|c s]; [congruence|]. destruct (ascii_dec c "0") as [-> | Nc].
  - destruct s as [|x s]; [reflexivity|]. exfalso. now apply (Z (x :: s)).
  - apply (numeral_nz _ 0) in H; [discriminate| |reflexivity]. intros t E. now injection E as -> _.
Qed.
Lemma short_group_head (s : str) (n : N) : short_group s n -> n <> 0%N -> forall t, s <> "0"%char :: t.
Proof.
  intros ((Ns & _ & H) & Z & _) Nn t ->. destruct t as [|x t]; [|now apply (Z (x :: t))].
  apply numeral_iff in H. destruct H as [_ H]. now apply Nn.
Qed.
Lemma short_group_unique (a b : str) (n : N) : short_group a n -> short_group b n -> a = b.
Proof.
  intros A B. destruct (N.eq_dec n 0) as [-> | Nn]; [now rewrite (short_group_zero a A), (short_group_zero b B)|].
  pose proof (short_group_head a n A Nn) as Za. pose proof (short_group_head b n B Nn) as Zb.
  destruct A as ((_ & _ & A) & _ & Ca), B as ((_ & _ & B) & _ & Cb). now apply numeral_unique with (n := n).
Qed.
Lemma short_groups_unique (a : str) (l : list N) : short_groups a l -> forall b, short_groups b l -> a = b.
Proof.
  induction 1 as [a n A|a n t l A At IH]; intros b B.
  - inversion B as [b' n' Hb|b' n' t' l' Hb Ht']; subst; [now apply short_group_unique with (n := n)|inversion Ht'].
  - inversion B as [b' n' Hb|b' n' t' l' Hb Ht']; subst; [inversion At|]. f_equal; [now apply short_group_unique with (n := n)|]. f_equal. now apply IH.
Qed.
Lemma zeros_at_self (l r : list N) (n : nat) : zeros_at (l ++ repeat 0%N n ++ r) (List.length l) n.
Proof. exists l, r. auto. Qed.
Lemma app_eq_len (a b c d : list N) : a ++ b = c ++ d -> List.length a = List.length c -> a = c /\ b = d.
Proof.
  revert c. induction a as [|x a IH]; intros [|y c] E L; try discriminate L; [now split|]. injection E as <- E. injection L as L.
  destruct (IH c E L) as [-> ->]. now split.
Qed.
Lemma ipv6_written_unique (p : list N) (s t : str) : ipv6_written p s -> ipv6_written p t -> s = t.
Proof.
  intros [s' S Z|a l n b l' E L M A B] [t' T Y|c k m d k' E' L' M' C D].
  - now apply short_groups_unique with (l := p).
  - exfalso. specialize (Z (List.length k) m). rewrite E' in Z. specialize (Z (zeros_at_self k k' m)). lia.
  - exfalso. specialize (Y (List.length l) n). rewrite E in Y. specialize (Y (zeros_at_self l l' n)). lia.
  - assert (N1 : zeros_at p (List.length k) m) by (rewrite E'; apply zeros_at_self).
    assert (N2 : zeros_at p (List.length l) n) by (rewrite E; apply zeros_at_self).
    apply M in N1. apply M' in N2. assert (m = n) as -> by lia. assert (Lk : List.length l = List.length k) by lia.
    rewrite E in E'. apply app_eq_len in E'; [|exact Lk]. destruct E' as [-> E']. apply app_inv_head in E'. subst k'.
    f_equal; [|f_equal].
    + destruct A as [[-> ->]|A], C as [[-> X]|C]; subst; auto; try (inversion C; fail); try (inversion A; fail). now apply short_groups_unique with (l := k).
    + destruct B as [[-> ->]|B], D as [[-> X]|D]; subst; auto; try (inversion D; fail); try (inversion B; fail). now apply short_groups_unique with (l := l').
Qed.
Lemma octet_dec (n : N) : (n < 256)%N -> octet (dec_of_N n) n.
Proof.
  intro L. split; [apply dec_of_N_ne|]. split; [|split; [apply dec_numeral|exact L]]. intros t Nt E. apply Nt. now apply dec_of_N_no_zero with (n := n).
Qed.
Lemma octet_unique (s : str) (n : N) : octet s n -> s = dec_of_N n.
Proof.
  intro H. apply octet_iff in H. destruct H as (Ns & Z & F & -> & _). apply digits_unique; auto; try apply dec_of_N_digits; try apply dec_of_N_ne.
  - intros x E. destruct x as [|y x]; [reflexivity|]. exfalso. now apply (Z (y :: x)).
  - intros x E. now apply dec_of_N_no_zero in E.
  - rewrite dec_of_N_val. symmetry. now apply radix_ten.
Qed.
Lemma ipv4_text_written (n : N) (s : str) : (n < 2 ^ 32)%N -> (host_written (HIpv4 n) s <-> s = ipv4_text n).
Proof.
  intro L. change (2 ^ 32)%N with 4294967296%N in L. unfold ipv4_text. rewrite !N.shiftr_div_pow2. change (2 ^ 24)%N with 16777216%N. change (2 ^ 16)%N with 65536%N. change (2 ^ 8)%N with 256%N.
  split.
  - intro H. inversion H as [|n' a b c d na nb nc nd A B C D E|]; subst.
    pose proof (numeral_octet _ _ A). pose proof (numeral_octet _ _ B). pose proof (numeral_octet _ _ C). pose proof (numeral_octet _ _ D).
    set (n := (((na * 256 + nb) * 256 + nc) * 256 + nd)%N).
    assert (Ea : (n / 16777216 mod 256 = na)%N) by (unfold n; zify; Z.to_euclidean_division_equations; lia).
    assert (Eb : (n / 65536 mod 256 = nb)%N) by (unfold n; zify; Z.to_euclidean_division_equations; lia).
    assert (Ec : (n / 256 mod 256 = nc)%N) by (unfold n; zify; Z.to_euclidean_division_equations; lia).
    assert (Ed : (n mod 256 = nd)%N) by (unfold n; zify; Z.to_euclidean_division_equations; lia).
    rewrite Ea, Eb, Ec, Ed. rewrite (octet_unique _ _ A), (octet_unique _ _ B), (octet_unique _ _ C), (octet_unique _ _ D). reflexivity.
  - intros ->. set (na := (n / 16777216 mod 256)%N). set (nb := (n / 65536 mod 256)%N). set (nc := (n / 256 mod 256)%N). set (nd := (n mod 256)%N).
    assert (B : forall k, (n / k mod 256 < 256)%N) by (intro k; apply N.mod_lt; lia). assert (Bd : (nd < 256)%N) by (apply N.mod_lt; lia).
    apply (ipv4_written n (dec_of_N na) (dec_of_N nb) (dec_of_N nc) (dec_of_N nd) na nb nc nd); try (apply octet_dec; auto; apply B).
    unfold na, nb, nc, nd. clear - L. zify. Z.to_euclidean_division_equations. lia.
Qed.
Lemma written_iff (idna : str -> option str) (s t : str) (h : host) : host_reads idna s h -> (host_written h t <-> t = host_show h).
Proof.
  intros [s' p H|s' d n N1 M F H|s' d N1 M F Nd L]; cbn [host_show].
  - pose proof (ipv6_text_written p (ipv6_reads_ok _ _ H)) as W. split.
    + intro X. inversion X as [| |p' u U]; subst. now rewrite (ipv6_written_unique p u (ipv6_text p) U W).
    + intros ->. now constructor.
  - apply ipv4_text_written. now apply ipv4_reads_lt with (s := d).
  - split; [intro X; now inversion X|intros ->; constructor].
Qed.
Lemma written_reads (idna : str -> option str) (s t : str) (h : host) : idna_laws idna -> host_reads idna s h -> host_written h t -> host_reads idna t h.
Proof. intros I R W. apply (written_iff idna s t h R) in W. subst t. now apply shown_reads with (s := s). Qed.
Lemma written_exists (idna : str -> option str) (s : str) (h : host) : host_reads idna s h -> exists t, host_written h t /\ forall t', host_written h t' -> t' = t.
Proof. intro R. exists (host_show h). split; [now apply (written_iff idna s _ h R)|]. intros t' W. now apply (written_iff idna s t' h R). Qed.
Lemma written_inj (idna : str -> option str) (s1 s2 t : str) (g h : host) : idna_laws idna -> host_reads idna s1 g -> host_reads idna s2 h ->
  host_written g t -> host_written h t -> g = h.
Proof. intros I R1 R2 W1 W2. apply (written_reads idna s1 t g I R1) in W1. apply (written_reads idna s2 t h I R2) in W2. exact (host_reads_fun idna t g h W1 W2). Qed.
Lemma url_host_written (idna : str -> option str) (s t : str) : url_host idna s = Some t <-> exists h, host_reads idna s h /\ host_written h t.
Proof.
  rewrite url_host_some. split; intros (h & R & E); exists h; (split; [exact R|]); now apply (written_iff idna s t h R).
Qed.

(** ** URLs *)
Definition with_host (u : url) (h : option str) : url :=
  Url (u_scheme u) (u_has_authority u) (u_username u) (u_password u) h (u_port u) (u_path u) (u_query u) (u_fragment u).
Lemma special_host (hp : host_parser) (s : str) (u : url) : special_url hp s u <->
  exists hs, special_url Some s (with_host u (Some hs)) /\ hp hs = u_host u /\ u_host u <> None.
Proof.
  split.
  - intros (t & sch & sl & auth & path & q & f & A1 & A2 & A3 & A4 & A5 & A6 & A7 & A8 & A9). inversion A8 as [h pt u0 N1 U P T H Nh Pt|c h pt u0 C N1 T H Nh Pt]; subst u0 auth.
    + exists h. split; [|now split]. exists t, sch, sl, (h ++ pt), path, q, f. repeat (split; [assumption|]). split; [|exact A9].
      apply authority_plain; cbn [with_host u_username u_password u_host u_port]; auto. discriminate.
    + exists h. split; [|now split]. exists t, sch, sl, (c ++ "@"%char :: h ++ pt), path, q, f. repeat (split; [assumption|]). split; [|exact A9].
      apply authority_user; cbn [with_host u_username u_password u_host u_port]; auto. discriminate.
  - intros (hs & (t & sch & sl & auth & path & q & f & A1 & A2 & A3 & A4 & A5 & A6 & A7 & A8 & A9) & H & Nh).
    exists t, sch, sl, auth, path, q, f. repeat (split; [assumption|]). split; [|exact A9].
    inversion A8 as [h pt u' N1 U P T E Nh' Pt|c h pt u' C N1 T E Nh' Pt]; subst; cbn [with_host u_username u_password u_host u_port u_scheme] in *; injection E as ->.
    + now apply authority_plain.
    + now apply authority_user.
Qed.
Lemma addresses_url (idna : str -> option str) (s : str) (u : url) : special_url (url_host idna) s u ->
  exists h t, addresses idna s h /\ host_written h t /\ u_host u = Some t.
Proof.
  intro H. apply special_host in H. destruct H as (hs & S & E & Nh). destruct (u_host u) as [t|] eqn:U; [|congruence].
  apply url_host_written in E. destruct E as (h & R & W). exists h, t. split; [|now split]. exists hs. split; [|exact R]. eexists. split; [exact S|reflexivity].
Qed.
Lemma addresses_fun (idna : str -> option str) (s : str) (g h : host) : addresses idna s g -> addresses idna s h -> g = h.
Proof.
  intros (hs & (u & S & U) & R) (hs' & (u' & S' & U') & R'). rewrite (special_url_fun Some s u' u S' S) in U'. rewrite U in U'. injection U' as <-.
  exact (host_reads_fun idna hs g h R R').
Qed.
Lemma authority_hosts (idna : str -> option str) (r1 r2 : rq) (s1 s2 : str) (h1 h2 : host) (p1 p2 : params) : idna_laws idna ->
  special_url (url_host idna) s1 (rq_url r1) -> special_url (url_host idna) s2 (rq_url r2) -> addresses idna s1 h1 -> addresses idna s2 h2 ->
  (rq_derive r1 (derived_named $"@authority" p1) = rq_derive r2 (derived_named $"@authority" p2) <-> h1 = h2).
Proof.
  intros I S1 S2 A1 A2. rewrite !rq_authority.
  destruct (addresses_url idna s1 _ S1) as (h1' & t1 & A1' & W1 & ->). destruct (addresses_url idna s2 _ S2) as (h2' & t2 & A2' & W2 & ->).
  rewrite <- (addresses_fun idna s1 h1 h1' A1 A1') in W1. rewrite <- (addresses_fun idna s2 h2 h2' A2 A2') in W2.
  destruct A1 as (hs1 & _ & R1), A2 as (hs2 & _ & R2). split.
  - intro E. injection E as ->. exact (written_inj idna hs1 hs2 t2 h1 h2 I R1 R2 W1 W2).
  - intros <-. apply (written_iff idna hs1 _ h1 R1) in W1, W2. congruence.
Qed.
Lemma same_url_same_host (idna : str -> option str) (s1 s2 : str) (u : url) : idna_laws idna -> special_url (url_host idna) s1 u -> special_url (url_host idna) s2 u ->
  exists h, addresses idna s1 h /\ addresses idna s2 h.
Proof.
  intros I S1 S2. destruct (addresses_url idna s1 u S1) as (h & t & A & W & E). destruct (addresses_url idna s2 u S2) as (h' & t' & A' & W' & E').
  rewrite E in E'. injection E' as <-. exists h. split; [exact A|]. pose proof A as (hs & _ & R). pose proof A' as (hs' & _ & R').
  now rewrite (written_inj idna hs hs' t h h' I R R' W W').
Qed.
Lemma written_reads_host (idna : str -> option str) (s : str) (h : host) : host_reads idna s h ->
  (exists t, host_written h t /\ forall t', host_written h t' -> t' = t) /\ (forall h', host_reads idna s h' -> h' = h).
Proof. intro R. split; [exact (written_exists idna s h R)|]. intros h' R'. exact (host_reads_fun idna s h' h R' R). Qed.
Lemma accepted_host (cr : client_request_like rq) (r r' : rq) (c : signing_config) (env : sign_env) (s : mock) (vc : verifying_config)
  (venv : verify_env) (kid : str) (ps : params) (idna : str -> option str) (t1 t2 : str) : cr = rq_async \/ cr = rq_blocking -> idna_laws idna ->
  sys_clock_ok (se_sys env) -> sign cr r c env = Done (r', Ok tt) ->
  Forall component_rep (sc_components c) -> sc_nonce c <> Some [] ->
  mr_derive s (CHeader $"signature-input") = rq_derive r' (CHeader $"signature-input") ->
  mr_derive s (CHeader $"signature") = rq_derive r' (CHeader $"signature") ->
  ~ In "="%char (sc_label c) -> plain (sc_label c) ->
  (forall m, let sig := sg_sign (sc_signature c) (se_rnd env) m in plain sig /\ clean_signature sig) ->
  no_lf (rq_method r) -> no_lf (mr_method s) -> (forall q, In q (sc_components c) -> ~ is_query_params q) ->
  special_url (url_host idna) t1 (rq_url r) -> special_url (url_host idna) t2 (mr_url s) -> In (derived_named $"@target-uri" ps) (sc_components c) ->
  verify mr_server s vc venv = Done (Ok (tt, kid)) ->
  (exists h, addresses idna t1 h /\ addresses idna t2 h)
  \/ exists m1 m2 k, two_bases (signed_view rq_rl r r') (mr_derive s) c (seconds (se_sys env)) m1 m2
      /\ In k (vc_keys vc (sc_key_id c)) /\ vf_verify k m2 (sg_sign (sc_signature c) (se_rnd env) m1) = true.
Proof.
  intros H1 HI H2 H3 H4 H5 H6 H7 H8 H9 H10 H11 H12 H13 H14 H15 H16 H17.
  destruct (accepted_rq cr r r' c env s vc venv kid ps (url_host idna) t1 t2 H1 (url_host_laws idna HI) H2 H3 H4 H5 H6 H7 H8 H9 H10 H11 H12 H13 H14 H15 H16 H17) as [E|F].
  - left. rewrite E in H15. exact (same_url_same_host idna t1 t2 _ HI H14 H15).
  - now right.
Qed.
