(** Lemmas about Calendar.v. *)
From Verif Require Export StrFacts Calendar SpecCalendar SpecSign.
Local Open Scope Z_scope.

(** ** Exhaustive checks over an interval *)
Fixpoint sweep (p : positive) (f : Z -> bool) (base : Z) : bool :=
  match p with
  | xH => f base
  | xO q => sweep q f base && sweep q f (base + Zpos q)
  | xI q => f base && (sweep q f (base + 1) && sweep q f (base + 1 + Zpos q))
  end.
Lemma sweep_all (p : positive) (f : Z -> bool) : forall base, sweep p f base = true ->
  forall z, base <= z < base + Zpos p -> f z = true.
Proof.
  induction p as [q IH|q IH|]; intros base H z Hz; cbn [sweep] in H.
  - apply andb_true_iff in H. destruct H as [H0 H]. apply andb_true_iff in H. destruct H as [H1 H2].
    destruct (Z.eq_dec z base) as [->|N]; [exact H0|].
    destruct (Z_lt_dec z (base + 1 + Zpos q)); [apply (IH _ H1); lia|apply (IH _ H2); lia].
  - apply andb_true_iff in H. destruct H as [H1 H2].
    destruct (Z_lt_dec z (base + Zpos q)); [apply (IH _ H1); lia|apply (IH _ H2); lia].
  - replace z with base by lia. exact H.
Qed.

(** ** Days to dates *)
(** The date within an era of 400 years. *)
Definition era_date (doe : Z) : Z * Z * Z :=
  let yoe := (doe - doe / 1460 + doe / 36524 - doe / 146096) / 365 in
  let doy := doe - (365 * yoe + yoe / 4 - yoe / 100) in
  let mp := (5 * doy + 2) / 153 in
  let d := doy - (153 * mp + 2) / 5 + 1 in
  let m := if mp <? 10 then mp + 3 else mp - 9 in
  (yoe + (if m <=? 2 then 1 else 0), m, d).
Definition shift (e : Z) (t : Z * Z * Z) : Z * Z * Z := let '(y, m, d) := t in (y + e * 400, m, d).
Lemma civil_era (day : Z) :
  civil_of_days day = shift ((day + 719468) / 146097) (era_date ((day + 719468) mod 146097)).
Proof.
  unfold civil_of_days, era_date, shift. cbv zeta. f_equal. f_equal. lia.
Qed.
Definition dateb (a b : Z * Z * Z) : bool :=
  let '(y, m, d) := a in let '(y', m', d') := b in (y =? y') && (m =? m') && (d =? d').
Lemma dateb_eq (a b : Z * Z * Z) : dateb a b = true -> a = b.
Proof. destruct a as [[y m] d], b as [[y' m'] d']. cbn. rewrite !andb_true_iff, !Z.eqb_eq. intros [[-> ->] ->]. reflexivity. Qed.
(** The day number of a date (0 = 0000-03-01): the inverse. *)
Definition day_of (t : Z * Z * Z) : Z :=
  let '(y0, m, d) := t in
  let y := if m <=? 2 then y0 - 1 else y0 in
  let mp := if m <=? 2 then m + 9 else m - 3 in
  365 * y + y / 4 - y / 100 + y / 400 + (153 * mp + 2) / 5 + d - 1.
(** *** Years of an era *)
(** The first day of year [y] (from March) of the era. *)
Definition start (y : Z) : Z := 365 * y + y / 4 - y / 100 + y / 400.
Definition year_count (doe : Z) : Z := doe - doe / 1460 + doe / 36524 - doe / 146096.
Lemma year_count_step (x : Z) : 0 <= x -> year_count x <= year_count (x + 1).
Proof. intro H. unfold year_count. lia. Qed.
Lemma year_count_mono (x y : Z) : 0 <= x <= y -> year_count x <= year_count y.
Proof.
  intros [H0 H]. replace y with (x + Z.of_nat (Z.to_nat (y - x))) by lia. generalize (Z.to_nat (y - x)). clear H y.
  induction n as [|n IH]; [rewrite Z.add_0_r; lia|]. etransitivity; [exact IH|].
  replace (x + Z.of_nat (S n)) with (x + Z.of_nat n + 1) by lia. apply year_count_step. lia.
Qed.
Definition year_ok (y : Z) : bool :=
  (year_count (start y) / 365 =? y) && (year_count (start (y + 1) - 1) / 365 =? y)
  && (start (y + 1) - start y =? if leap (y + 1) then 366 else 365).
Lemma year_sweep (y : Z) : 0 <= y < 400 -> year_ok y = true.
Proof. intro H. apply (sweep_all 400 year_ok 0); [vm_compute; reflexivity|lia]. Qed.
Lemma year_find (doe : Z) : 0 <= doe < 146097 -> exists y, 0 <= y < 400 /\ start y <= doe < start (y + 1).
Proof.
  intro H. assert (X : forall n : nat, doe < start (Z.of_nat n) -> exists y, 0 <= y < Z.of_nat n /\ start y <= doe < start (y + 1)).
  { induction n as [|n IH]; intro L; [exfalso; change (start (Z.of_nat 0)) with 0 in L; lia|].
    destruct (Z_lt_dec doe (start (Z.of_nat n))) as [C|C].
    - destruct (IH C) as (y & Hy & Hs). exists y. split; [lia|exact Hs].
    - exists (Z.of_nat n). split; [lia|]. replace (Z.of_nat n + 1) with (Z.of_nat (S n)) by lia. lia. }
  destruct (X (Z.to_nat 400)) as (y & Hy & Hs); [|exists y; split; [|exact Hs]].
  - rewrite Z2Nat.id by lia. change (start 400) with 146097. lia.
  - rewrite Z2Nat.id in Hy by lia. exact Hy.
Qed.
Lemma start_pos (y : Z) : 0 <= y -> 0 <= start y.
Proof. intro H. unfold start. lia. Qed.
Lemma start_top (y : Z) : 0 <= y < 400 -> start y <= 145731.
Proof. intro H. unfold start. lia. Qed.
(** The year the code computes is the right one. *)
Lemma year_found (doe y : Z) : 0 <= y < 400 -> start y <= doe < start (y + 1) -> year_count doe / 365 = y.
Proof.
  intros Hy Hd. pose proof (year_sweep y Hy) as S. unfold year_ok in S. apply andb_true_iff in S. destruct S as [S _].
  apply andb_true_iff in S. destruct S as [S1 S2]. apply Z.eqb_eq in S1. apply Z.eqb_eq in S2.
  pose proof (start_pos y ltac:(lia)) as P.
  pose proof (year_count_mono (start y) doe ltac:(lia)) as M1. pose proof (year_count_mono doe (start (y + 1) - 1) ltac:(lia)) as M2.
  pose proof (Z.div_le_mono _ _ 365 ltac:(lia) M1) as D1. pose proof (Z.div_le_mono _ _ 365 ltac:(lia) M2) as D2.
  rewrite S1 in D1. rewrite S2 in D2. now apply Z.le_antisymm.
Qed.
Lemma year_length (y : Z) : 0 <= y < 400 -> start (y + 1) - start y = if leap (y + 1) then 366 else 365.
Proof.
  intro Hy. pose proof (year_sweep y Hy) as S. unfold year_ok in S. apply andb_true_iff in S. destruct S as [_ S].
  now apply Z.eqb_eq in S.
Qed.

(** *** Days of a year (from March) *)
Definition month_of (doy : Z) : Z := (5 * doy + 2) / 153.
Definition year_date (doy : Z) : Z * Z :=
  let mp := month_of doy in (if mp <? 10 then mp + 3 else mp - 9, doy - (153 * mp + 2) / 5 + 1).
(** January and February belong to the next calendar year. *)
Definition jan_feb (doy : Z) : bool := 306 <=? doy.
Definition doy_ok (doy : Z) : bool :=
  let '(m, d) := year_date doy in
  Bool.eqb (m <=? 2) (jan_feb doy)
  && (0 <=? month_of doy) && (month_of doy <=? 11)
  && (1 <=? m) && (m <=? 12) && (1 <=? d) && (d <=? 31).
Definition step_ok (doy : Z) : bool :=
  let '(m, d) := year_date doy in
  let '(m', d') := year_date (doy + 1) in
  if doy <? 364
  then (* the next day is in the same year, whether or not that is a leap year *)
    if d <? month_length 1 m then (m' =? m) && (d' =? d + 1) && Bool.eqb (jan_feb doy) (jan_feb (doy + 1)) && (negb (m =? 2) || (d <? 28)) else
    if m <? 12 then (m' =? m + 1) && (d' =? 1) && Bool.eqb (jan_feb doy) (jan_feb (doy + 1)) && negb (m =? 2)
    else (m' =? 1) && (d' =? 1) && (doy =? 305) && negb (m =? 2)
  else if doy =? 364 then (m =? 2) && (d =? 28) && (m' =? 2) && (d' =? 29)
  else (m =? 2) && (d =? 29).
Lemma doy_sweep (doy : Z) : 0 <= doy < 366 -> doy_ok doy = true.
Proof. intro H. apply (sweep_all 366 doy_ok 0); [vm_compute; reflexivity|lia]. Qed.
Lemma step_sweep (doy : Z) : 0 <= doy < 366 -> step_ok doy = true.
Proof. intro H. apply (sweep_all 366 step_ok 0); [vm_compute; reflexivity|lia]. Qed.
Lemma doy_range (doe y : Z) : 0 <= y < 400 -> start y <= doe < start (y + 1) -> 0 <= doe - start y < 366.
Proof. intros Hy Hd. pose proof (year_length y Hy) as Ly. destruct (leap (y + 1)); lia. Qed.
Lemma era_date_year (doe y : Z) : 0 <= y < 400 -> start y <= doe < start (y + 1) ->
  era_date doe = (y + (if jan_feb (doe - start y) then 1 else 0), fst (year_date (doe - start y)), snd (year_date (doe - start y))).
Proof.
  intros Hy Hd. pose proof (year_found doe y Hy Hd) as F. pose proof (doy_sweep _ (doy_range _ _ Hy Hd)) as S. unfold doy_ok in S.
  unfold era_date. cbv zeta. fold (year_count doe). rewrite F.
  assert (E : doe - (365 * y + y / 4 - y / 100) = doe - start y).
  { unfold start. replace (y / 400) with 0; [lia|]. symmetry. apply Z.div_small. lia. }
  rewrite E. unfold year_date in *. cbv zeta in *. cbn [fst snd].
  fold (month_of (doe - start y)). rewrite !andb_true_iff in S. destruct S as [[[[[[S _] _] _] _] _] _].
  apply Bool.eqb_prop in S. now rewrite S.
Qed.

Lemma leap_shift (y e : Z) : leap (y + e * 400) = leap y.
Proof.
  unfold leap. replace (y + e * 400) with (y + (e * 100) * 4) at 1 by lia. rewrite Z_mod_plus_full.
  replace (y + e * 400) with (y + (e * 4) * 100) at 1 by lia. rewrite Z_mod_plus_full, Z_mod_plus_full. reflexivity.
Qed.
Lemma next_shift (e : Z) (t : Z * Z * Z) : next_day (shift e t) = shift e (next_day t).
Proof.
  destruct t as [[y m] d]. cbn [shift next_day]. unfold month_length. rewrite leap_shift.
  destruct (d <? _); [reflexivity|]. destruct (m <? 12); [reflexivity|]. cbn. do 2 f_equal. lia.
Qed.
Lemma shift_shift (a b : Z) (t : Z * Z * Z) : shift a (shift b t) = shift (a + b) t.
Proof. destruct t as [[y m] d]. cbn. do 2 f_equal. lia. Qed.
(** Within an era, and to the next. *)
Lemma era_next (doe : Z) : 0 <= doe < 146097 ->
  next_day (era_date doe) = if doe =? 146096 then shift 1 (era_date 0) else era_date (doe + 1).
Proof.
  intro H. destruct (year_find doe H) as (y & Hy & Hd). pose proof (year_length y Hy) as Ly.
  rewrite (era_date_year doe y Hy Hd). pose proof (doy_range _ _ Hy Hd) as B. set (doy := doe - start y) in *.
  assert (Eq : doe = start y + doy) by (subst doy; lia). pose proof (step_sweep doy B) as S. unfold step_ok in S.
  clearbody doy.
  destruct (year_date doy) as [m d] eqn:E1. destruct (year_date (doy + 1)) as [m' d'] eqn:E2. cbn [fst snd].
  assert (Same : start y <= doe + 1 < start (y + 1) -> 
    (if doe =? 146096 then shift 1 (era_date 0) else era_date (doe + 1)) = (y + (if jan_feb (doy + 1) then 1 else 0), m', d')).
  { intro D. replace (doe =? 146096) with false.
    2:{ symmetry. apply Z.eqb_neq. intro F. pose proof (start_top y Hy). destruct (Z.eq_dec y 399) as [Y|Y].
        - subst y. change (start (399 + 1)) with 146097 in D. lia.
        - pose proof (start_top (y + 1) ltac:(lia)). lia. }
    rewrite (era_date_year (doe + 1) y Hy D). replace (doe + 1 - start y) with (doy + 1) by lia. now rewrite E2. }
  assert (First : forall z, 0 <= z < 400 -> era_date (start z) = (z, 3, 1)).
  { intros z Hz. pose proof (year_length z Hz) as Lz. rewrite (era_date_year (start z) z Hz); [|destruct (leap (z + 1)); lia].
    rewrite Z.sub_diag. change (jan_feb 0) with false. change (year_date 0) with (3, 1). cbn [fst snd]. now rewrite Z.add_0_r. }
  assert (Last : doe + 1 = start (y + 1) ->
    (if doe =? 146096 then shift 1 (era_date 0) else era_date (doe + 1)) = (y + 1, 3, 1)).
  { intro E. destruct (Z.eq_dec y 399) as [Y|Y].
    - subst y. change (start (399 + 1)) with 146097 in E. replace doe with 146096 by lia. reflexivity.
    - pose proof (start_top (y + 1) ltac:(lia)). replace (doe =? 146096) with false by (symmetry; apply Z.eqb_neq; lia).
      rewrite E. apply First. lia. }
  destruct (Z.ltb_spec doy 364) as [C|C].
  - rewrite Same by (destruct (leap (y + 1)); lia). unfold next_day.
    assert (ML : m <> 2 \/ d < 28 -> forall x, (d <? month_length x m) = (d <? month_length 1 m)).
    { intros O x. unfold month_length. destruct (Z.eqb_spec m 2) as [M|M]; [|reflexivity]. change (leap 1) with false.
      destruct (leap x); lia. }
    destruct (d <? month_length 1 m) eqn:D.
    + rewrite !andb_true_iff in S. destruct S as [[[S1 S2] S3] S4].
      rewrite ML by lia. apply Z.eqb_eq in S1. apply Z.eqb_eq in S2. apply Bool.eqb_prop in S3. rewrite <- S3. now subst m' d'.
    + destruct (m <? 12) eqn:M.
      * rewrite !andb_true_iff in S. destruct S as [[[S1 S2] S3] S4].
        rewrite ML by lia. apply Z.eqb_eq in S1. apply Z.eqb_eq in S2. apply Bool.eqb_prop in S3. rewrite <- S3. now subst m' d'.
      * rewrite !andb_true_iff in S. destruct S as [[[S1 S2] S3] S4].
        rewrite ML by lia. apply Z.eqb_eq in S1. apply Z.eqb_eq in S2. apply Z.eqb_eq in S3. subst m' d' doy.
        change (jan_feb 305) with false. change (jan_feb (305 + 1)) with true. cbn match. do 2 f_equal. lia.
  - assert (J : jan_feb doy = true) by (unfold jan_feb; lia). rewrite J.
    destruct (Z.eqb_spec doy 364) as [C4|C4].
    + rewrite !andb_true_iff, !Z.eqb_eq in S. destruct S as [[[-> ->] ->] ->]. unfold next_day, month_length.
      destruct (leap (y + 1)) eqn:Lp.
      * rewrite Same by lia. replace (jan_feb (doy + 1)) with true by (unfold jan_feb; lia). reflexivity.
      * rewrite Last by lia. reflexivity.
    + rewrite !andb_true_iff, !Z.eqb_eq in S. destruct S as [-> ->]. unfold next_day, month_length.
      destruct (leap (y + 1)) eqn:Lp; [|exfalso; lia]. rewrite Last by lia. reflexivity.
Qed.
Lemma era_facts (doe : Z) : 0 <= doe < 146097 ->
  day_of (era_date doe) = doe /\ let '(y, m, d) := era_date doe in 1 <= m <= 12 /\ 1 <= d <= 31.
Proof.
  intro H. destruct (year_find doe H) as (y & Hy & Hd).
  rewrite (era_date_year doe y Hy Hd). pose proof (doy_range _ _ Hy Hd) as B. set (doy := doe - start y) in *.
  assert (Eq : doe = start y + doy) by (subst doy; lia). pose proof (doy_sweep doy B) as S. unfold doy_ok in S. clearbody doy.
  destruct (year_date doy) as [m d] eqn:E. cbn [fst snd]. rewrite !andb_true_iff in S. destruct S as [[[[[[S0 S1] S2] S3] S4] S5] S6].
  apply Bool.eqb_prop in S0. split; [|lia]. unfold day_of. unfold year_date in E. cbv zeta in E. apply pair_equal_spec in E; destruct E as [Em Ed].
  assert (Y : (if m <=? 2 then y + (if jan_feb doy then 1 else 0) - 1 else y + (if jan_feb doy then 1 else 0)) = y).
  { rewrite S0. destruct (jan_feb doy); lia. }
  cbv zeta. rewrite Y. assert (M : (if m <=? 2 then m + 9 else m - 3) = month_of doy).
  { clear Ed. destruct (Z.ltb_spec (month_of doy) 10); destruct (Z.leb_spec m 2); lia. }
  cbv zeta. rewrite ?Y, M. fold (start y). lia.
Qed.
Lemma civil_next (day : Z) : civil_of_days (day + 1) = next_day (civil_of_days day).
Proof.
  rewrite !civil_era, next_shift. set (z := day + 719468). replace (day + 1 + 719468) with (z + 1) by (subst z; lia).
  pose proof (Z_div_mod_eq_full z 146097) as E. pose proof (Z_mod_lt z 146097 ltac:(lia)) as B.
  set (e := z / 146097) in *. set (k := z mod 146097) in *. rewrite (era_next k B).
  destruct (Z.eqb_spec k 146096) as [K|K].
  - assert (Q : (z + 1) / 146097 = e + 1) by (symmetry; apply (Z.div_unique _ _ _ 0); lia).
    assert (M : (z + 1) mod 146097 = 0) by (symmetry; apply (Z.mod_unique _ _ (e + 1) 0); lia).
    rewrite Q, M. symmetry. apply shift_shift.
  - assert (Q : (z + 1) / 146097 = e) by (symmetry; apply (Z.div_unique _ _ _ (k + 1)); lia).
    assert (M : (z + 1) mod 146097 = k + 1) by (symmetry; apply (Z.mod_unique _ _ e (k + 1)); lia).
    now rewrite Q, M.
Qed.
Lemma civil_after (n : nat) : civil_of_days (Z.of_nat n) = date_after n.
Proof.
  induction n as [|n IH]; [vm_compute; reflexivity|]. rewrite Nat2Z.inj_succ. unfold Z.succ. rewrite civil_next, IH. reflexivity.
Qed.
Lemma civil_range (day : Z) : let '(y, m, d) := civil_of_days day in 1 <= m <= 12 /\ 1 <= d <= 31.
Proof.
  rewrite civil_era. pose proof (Z_mod_lt (day + 719468) 146097 ltac:(lia)) as B. apply era_facts in B. destruct B as [_ B].
  destruct (era_date ((day + 719468) mod 146097)) as [[y m] d]. exact B.
Qed.
(** Days are determined by their dates. *)
Lemma day_of_shift (e : Z) (t : Z * Z * Z) : day_of (shift e t) = day_of t + e * 146097.
Proof.
  destruct t as [[y m] d]. cbn [shift day_of].
  assert (X : forall y, 365 * (y + e * 400) + (y + e * 400) / 4 - (y + e * 400) / 100 + (y + e * 400) / 400
                        = 365 * y + y / 4 - y / 100 + y / 400 + e * 146097).
  { intro x. replace ((x + e * 400) / 4) with (x / 4 + e * 100).
    2:{ replace (e * 400) with ((e * 100) * 4) by lia. now rewrite Z_div_plus_full by lia. }
    replace ((x + e * 400) / 100) with (x / 100 + e * 4).
    2:{ replace (e * 400) with ((e * 4) * 100) by lia. now rewrite Z_div_plus_full by lia. }
    rewrite Z_div_plus_full by lia. lia. }
  destruct (m <=? 2); cbv zeta.
  - replace (y + e * 400 - 1) with (y - 1 + e * 400) by lia. rewrite X. lia.
  - rewrite X. lia.
Qed.
Lemma civil_day (day : Z) : day_of (civil_of_days day) = day + 719468.
Proof.
  rewrite civil_era, day_of_shift. set (z := day + 719468).
  pose proof (Z_div_mod_eq_full z 146097) as E. pose proof (Z_mod_lt z 146097 ltac:(lia)) as B.
  rewrite (proj1 (era_facts _ B)). lia.
Qed.
Lemma civil_inj (a b : Z) : civil_of_days a = civil_of_days b -> a = b.
Proof. intro H. apply (f_equal day_of) in H. rewrite !civil_day in H. lia. Qed.
