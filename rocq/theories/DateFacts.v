(** The HTTP date text. *)
From Verif Require Export CalendarFacts SfvFacts ReqFacts SignFacts.
Local Open Scope Z_scope.

(** ** Every Date text is readable *)
Lemma printable_zpad (n : nat) (z : Z) : printable (zpad n z) = true.
Proof.
  unfold zpad. cbv zeta. unfold printable. rewrite forallb_app. apply andb_true_iff. split; [|apply printable_dec].
  generalize (n - List.length (dec_of_N (Z.to_N z)))%nat. intro k. induction k; [reflexivity|exact IHk].
Qed.
Lemma printable_nth (k : nat) (l : list str) : forallb printable l = true -> printable (nth k l []) = true.
Proof.
  intro H. destruct (nth_in_or_default k l []) as [I|E]; [|rewrite E; reflexivity]. rewrite forallb_forall in H. now apply H.
Qed.
Lemma fmt_printable (secs : Z) : printable (fmt_http_date secs) = true.
Proof.
  unfold fmt_http_date. cbv zeta. destruct (civil_of_days (secs / 86400)) as [[y m] d].
  assert (Y : printable (fmt_year y) = true).
  { unfold fmt_year. destruct (_ && _); [apply printable_zpad|]. destruct (y <? 0); exact (printable_zpad _ _). }
  assert (D : printable (day_name (weekday (secs / 86400))) = true) by (apply printable_nth; reflexivity).
  assert (M : printable (month_name m) = true) by (apply printable_nth; reflexivity).
  pose proof printable_zpad as Z. unfold printable in *. rewrite !forallb_app. rewrite D, M, Y, !Z. reflexivity.
Qed.
Lemma printable_plain (s : str) : printable s = true -> plain s.
Proof.
  intro H. apply plain_iff. unfold hvalue_visible. eapply forallb_impl; [|exact H]. intros x Hx. apply orb_true_iff. now left.
Qed.
Lemma fmt_plain (secs : Z) : plain (fmt_http_date secs).
Proof. apply printable_plain, fmt_printable. Qed.

(** ** Digits *)
Lemma zpad2 (z : Z) : 0 <= z < 100 -> zpad 2 z = two z.
Proof.
  intro H. assert (E : (fun z => str_eqb (zpad 2 z) (two z)) z = true).
  { apply (sweep_all 100 (fun z => str_eqb (zpad 2 z) (two z)) 0); [vm_compute; reflexivity|lia]. }
  now apply str_eqb_eq in E.
Qed.
Lemma zpad4 (z : Z) : 0 <= z < 10000 -> zpad 4 z = four z.
Proof.
  intro H. assert (E : (fun z => str_eqb (zpad 4 z) (four z)) z = true).
  { apply (sweep_all 10000 (fun z => str_eqb (zpad 4 z) (four z)) 0); [vm_compute; reflexivity|lia]. }
  now apply str_eqb_eq in E.
Qed.
Lemma two_val (z : Z) : 0 <= z < 100 ->
  match two z with [a; b] => (Z.of_N (code a) - 48) * 10 + (Z.of_N (code b) - 48) | _ => 0 end = z.
Proof.
  intro H. assert (E : (fun z => (match two z with [a; b] => (Z.of_N (code a) - 48) * 10 + (Z.of_N (code b) - 48) | _ => 0 end =? z)) z = true).
  { apply (sweep_all 100 (fun z => (match two z with [a; b] => (Z.of_N (code a) - 48) * 10 + (Z.of_N (code b) - 48) | _ => 0 end =? z)) 0);
      [vm_compute; reflexivity|lia]. }
  now apply Z.eqb_eq in E.
Qed.
Lemma two_inj (x y : Z) : 0 <= x < 100 -> 0 <= y < 100 -> two x = two y -> x = y.
Proof. intros Hx Hy E. rewrite <- (two_val x Hx), <- (two_val y Hy), E. reflexivity. Qed.

(** ** The text *)
Lemma year_range (n : nat) (y m d : Z) : (Z.of_nat n <= 2932896) -> date_after n = (y, m, d) -> 0 <= y <= 9999.
Proof.
  intros Hn E. pose proof (civil_day (Z.of_nat n)) as D. pose proof (civil_range (Z.of_nat n)) as B.
  rewrite civil_after, E in *. cbn [day_of] in D. destruct (Z.leb_spec m 2); lia.
Qed.
Lemma weekday_name (n : nat) : day_name (weekday (Z.of_nat n)) = weekday_after n.
Proof.
  unfold day_name, weekday, weekday_after. 
  assert (E : (Z.of_nat n + 4) mod 7 = (Z.of_nat (n mod 7) + 4) mod 7).
  { rewrite Nat2Z.inj_mod. rewrite Zplus_mod_idemp_l. reflexivity. }
  rewrite E. pose proof (Nat.mod_upper_bound n 7 ltac:(lia)) as B. 
  destruct (n mod 7)%nat as [|[|[|[|[|[|[|]]]]]]]; try reflexivity. lia.
Qed.
Lemma fmt_is_http_date (secs : Z) : 0 <= secs <= 253402300799 -> http_date secs (fmt_http_date secs).
Proof.
  intro H. unfold http_date, fmt_http_date. cbv zeta.
  pose proof (Z_div_mod_eq_full secs 86400) as E. pose proof (Z_mod_lt secs 86400 ltac:(lia)) as B.
  assert (Dn : 0 <= secs / 86400 <= 2932896) by lia.
  set (tod := secs mod 86400) in *. set (n := Z.to_nat (secs / 86400)).
  assert (En : secs / 86400 = Z.of_nat n) by (subst n; lia). rewrite En in *. rewrite civil_after.
  destruct (date_after n) as [[y m] d] eqn:Ed.
  pose proof (year_range n y m d ltac:(lia) Ed) as Y. pose proof (civil_range (Z.of_nat n)) as R. rewrite civil_after, Ed in R.
  exists n, y, m, d, (tod / 3600), (tod / 60 mod 60), (tod mod 60).
  split; [lia|]. split; [lia|]. split; [lia|]. split; [lia|]. split; [exact Ed|]. split; [exact Y|].
  rewrite weekday_name, (zpad2 d) by lia. rewrite (zpad2 (tod / 3600)) by lia. rewrite (zpad2 (tod / 60 mod 60)) by lia.
  rewrite (zpad2 (tod mod 60)) by lia. unfold fmt_year.
  replace ((0 <=? y) && (y <=? 9999)) with true by lia. rewrite zpad4 by lia. reflexivity.
Qed.

Lemma weekday_len (n : nat) : List.length (weekday_after n) = 3%nat.
Proof.
  unfold weekday_after. pose proof (Nat.mod_upper_bound n 7 ltac:(lia)) as B.
  destruct (n mod 7)%nat as [|[|[|[|[|[|[|]]]]]]]; try reflexivity. lia.
Qed.
Lemma month_len (m : Z) : 1 <= m <= 12 -> List.length (nth (Z.to_nat (m - 1)) months []) = 3%nat.
Proof.
  intro H. assert (L : (Z.to_nat (m - 1) < 12)%nat) by lia. revert L. generalize (Z.to_nat (m - 1)). clear.
  intros k L. do 12 (destruct k as [|k]; [reflexivity|]). lia.
Qed.
Lemma http_date_len (secs : Z) (t : str) : http_date secs t -> List.length t = 29%nat.
Proof.
  intros (n & y & m & d & hh & mm & ss & _ & _ & _ & _ & D & _ & ->).
  pose proof (civil_range (Z.of_nat n)) as R. rewrite civil_after, D in R.
  rewrite !app_length, weekday_len, month_len by lia. reflexivity.
Qed.
Lemma app_len_inj {A} (a b c d : list A) : List.length a = List.length c -> a ++ b = c ++ d -> a = c /\ b = d.
Proof.
  revert c. induction a as [|x a IH]; intros [|y c] L E; cbn in *; try discriminate; [now split|].
  injection E as -> E. injection L as L. destruct (IH c L E) as [-> ->]. now split.
Qed.
Lemma months_inj (i j : Z) : 1 <= i <= 12 -> 1 <= j <= 12 ->
  nth (Z.to_nat (i - 1)) months [] = nth (Z.to_nat (j - 1)) months [] -> i = j.
Proof.
  intros Hi Hj E. assert (N : NoDup months).
  { unfold months. repeat constructor; cbn; intuition discriminate. }
  pose proof (NoDup_nth months []) as [X _]. specialize (X N (Z.to_nat (i - 1)) (Z.to_nat (j - 1))).
  cbn [months List.length] in X. specialize (X ltac:(lia) ltac:(lia) E). lia.
Qed.
(** The text determines the second. *)
Lemma http_date_inj (a b : Z) (t : str) : http_date a t -> http_date b t -> a = b.
Proof.
  intros (n & y & m & d & hh & mm & ss & Ea & H1 & H2 & H3 & D & Y & T) (n' & y' & m' & d' & hh' & mm' & ss' & Eb & H1' & H2' & H3' & D' & Y' & T').
  pose proof (civil_range (Z.of_nat n)) as R. rewrite civil_after, D in R.
  pose proof (civil_range (Z.of_nat n')) as R'. rewrite civil_after, D' in R'.
  rewrite T' in T. clear T'.
  apply app_len_inj in T; [|now rewrite !weekday_len]. destruct T as [_ T].
  apply app_len_inj in T; [|reflexivity]. destruct T as [_ T].
  apply app_len_inj in T; [|reflexivity]. destruct T as [T1 T].
  apply app_len_inj in T; [|reflexivity]. destruct T as [_ T].
  apply app_len_inj in T; [|now rewrite !month_len by lia]. destruct T as [T2 T].
  apply app_len_inj in T; [|reflexivity]. destruct T as [_ T].
  apply app_len_inj in T; [|reflexivity]. destruct T as [T3 T].
  apply app_len_inj in T; [|reflexivity]. destruct T as [_ T].
  apply app_len_inj in T; [|reflexivity]. destruct T as [T4 T].
  apply app_len_inj in T; [|reflexivity]. destruct T as [_ T].
  apply app_len_inj in T; [|reflexivity]. destruct T as [T5 T].
  apply app_len_inj in T; [|reflexivity]. destruct T as [_ T].
  apply app_len_inj in T; [|reflexivity]. destruct T as [T6 _].
  apply two_inj in T1; [|lia|lia]. apply months_inj in T2; [|lia|lia].
  unfold four in T3. apply app_len_inj in T3; [|reflexivity]. destruct T3 as [T3 T3'].
  apply two_inj in T3; [|lia|lia]. apply two_inj in T3'; [|lia|lia].
  apply two_inj in T4; [|lia|lia]. apply two_inj in T5; [|lia|lia]. apply two_inj in T6; [|lia|lia].
  assert (y = y') by lia. subst y' m' d'.
  assert (N : Z.of_nat n = Z.of_nat n') by (apply civil_inj; rewrite !civil_after; congruence). lia.
Qed.

(** ** What [sign] adds *)
Section Client.
  Context {R : Type} (cr : client_request_like R) (L : client_laws cr).
  Let derive := rl_derive (cr_rl cr).
  Lemma auto_date (r r1 : R) (cs : list component) (c : signing_config) (env : sign_env) :
    sc_add_date c = true -> derive r (CHeader $"date") = Done None -> utc_clock_ok (se_utc env) ->
    add_auto_headers cr r c env = Done (r1, cs) ->
    derive r1 (CHeader $"date") = Done (Some (fmt_http_date (seconds (se_utc env)))).
  Proof.
    intros A D U. unfold add_auto_headers.
    destruct (add_date cr r c env) as [ra|] eqn:Ea; cbn [obind]; [|discriminate].
    destruct (add_host cr ra c) as [rb|] eqn:Eb; cbn [obind]; [|discriminate].
    destruct (add_digest cr rb c) as [rc|] eqn:Ec; cbn [obind]; [|discriminate].
    destruct (if sc_skip_missing c then _ else _) as [cs'|]; cbn [obind]; [|discriminate].
    intro H. injection H as <- <-. set (t := fmt_http_date (seconds (se_utc env))).
    assert (Da : derive ra (CHeader $"date") = Done (Some t)).
    { revert Ea. unfold add_date. rewrite A, (cl_has _ L). fold derive. change h_date with $"date". rewrite D. cbn [obind].
      unfold utc_now. destruct U as [U1 U2]. unfold seconds in *. change last_date with chrono_max in U2.
      replace ((0 <=? se_utc env) && chrono_range (se_utc env / ns_per_sec)) with true
        by (unfold chrono_range, ns_per_sec, chrono_min; lia).
      cbn [obind]. change (se_utc env / ns_per_sec) with (se_utc env / 1000000000). fold t.
      rewrite (legal_parse t (plain_legal t (fmt_plain _))). cbn [unwrap obind]. intro H. injection H as <-.
      apply (cl_set _ L). apply fmt_plain. }
    assert (Db : derive rb (CHeader $"date") = Done (Some t)).
    { revert Eb. apply (add_host_frame cr L (fun x => derive x (CHeader $"date") = Done (Some t))); [exact Da|].
      intros _ _ v. unfold derive. rewrite (cl_set_other _ L) by discriminate. exact Da. }
    revert Ec. apply (add_digest_frame cr L (fun x => derive x (CHeader $"date") = Done (Some t))); [exact Db|].
    intros _ _. split; [|intro v]; unfold derive; rewrite ?(cl_set_other _ L) by discriminate; rewrite (cl_digest _ L); exact Db.
  Qed.
  Lemma sign_date (r r' : R) (c : signing_config) (env : sign_env) (res : result unit error) :
    sc_add_date c = true -> derive r (CHeader $"date") = Done None ->
    sys_clock_ok (se_sys env) -> utc_clock_ok (se_utc env) -> sign cr r c env = Done (r', res) ->
    derive r' (CHeader $"date") = Done (Some (fmt_http_date (seconds (se_utc env)))).
  Proof.
    intros A D S U H. apply (sign_result_of cr r r' c env res S) in H. destruct H as (r1 & cs & Ha & H).
    pose proof (auto_date r r1 cs c env A D U Ha) as E. unfold derive in *.
    inversion H; subst; rewrite ?(cl_set_other _ L) by discriminate; exact E.
  Qed.
End Client.
