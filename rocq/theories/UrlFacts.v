(** The URL parser meets the specification of SpecUrl.v. *)
From Verif Require Export SpecUrl StrFacts SpecFacts.
From Verif Require Import ReadFacts LineFacts.

Lemma forallb_iff (f : ascii -> bool) (P : ascii -> Prop) (s : str) :
  (forall c, f c = true <-> P c) -> (forallb f s = true <-> Forall P s).
Proof. intro H. rewrite forallb_forall, Forall_forall. split; intros G c I; apply H, G, I. Qed.

(** ** Input *)
Lemma low_iff (c : ascii) : c0_or_space c = true <-> low c.
Proof. unfold c0_or_space, low, code. apply N.leb_le. Qed.
Lemma tab_iff (c : ascii) : tab_or_newline c = true <-> tab_break c.
Proof. unfold tab_or_newline, tab_break, code. rewrite !orb_true_iff, !N.eqb_eq. cbn [In]. intuition. Qed.
Lemma without_iff (s t : str) : without tab_break s t <-> t = filter (fun c => negb (tab_or_newline c)) s.
Proof.
  split.
  - induction 1 as [|c s t P _ IH|c s t P _ IH]; [reflexivity| |]; cbn [filter].
    + apply tab_iff in P. now rewrite P.
    + rewrite <- tab_iff in P. apply not_true_iff_false in P. now rewrite P, IH.
  - intros ->. induction s as [|c s IH]; cbn [filter]; [constructor|]. destruct (tab_or_newline c) eqn:E; cbn [negb].
    + apply without_drop; [now apply tab_iff|exact IH].
    + apply without_keep; [|exact IH]. rewrite <- tab_iff. congruence.
Qed.
Lemma stops_low (s : str) : stops c0_or_space s <-> forall c x, s = c :: x -> ~ low c.
Proof.
  destruct s as [|c s]; cbn [stops]; split; try easy.
  - intros E c' x H. injection H as <- <-. rewrite <- low_iff. congruence.
  - intro H. specialize (H c s eq_refl). rewrite <- low_iff in H. now apply not_true_iff_false.
Qed.
Lemma trim_both (f : ascii -> bool) (a m b : str) : forallb f a = true -> forallb f b = true -> stops f m -> stops f (rev m) ->
  rev (drop_while f (rev (drop_while f (a ++ m ++ b)))) = m.
Proof.
  intros A B M R. destruct m as [|c m].
  - cbn [app]. replace (drop_while f (a ++ b)) with (@nil ascii); [reflexivity|]. symmetry.
    assert (E : forall s, forallb f s = true -> drop_while f s = []).
    { induction s as [|c s IH]; cbn [drop_while forallb]; [reflexivity|]. intro H. apply andb_true_iff in H. destruct H as [-> H]. now apply IH. }
    apply E. now rewrite forallb_app, A, B.
  - rewrite drop_while_app by (exact A || exact M). rewrite rev_app_distr, drop_while_app; [apply rev_involutive| |exact R].
    rewrite forallb_forall in B |- *. intros x I. apply B. now apply in_rev.
Qed.
Lemma clean_iff (s t : str) : url_input s t <-> t = clean_input s.
Proof.
  split.
  - intros (a & m & b & -> & A & B & M1 & M2 & W). apply without_iff in W. rewrite W. unfold clean_input.
    rewrite trim_both; [reflexivity|now apply (forallb_iff _ _ _ low_iff)|now apply (forallb_iff _ _ _ low_iff)|now apply stops_low|].
    apply stops_low. intros c x E. apply (M2 c (rev x)). rewrite <- (rev_involutive m), E. reflexivity.
  - intros ->. set (d := drop_while c0_or_space s). exists (take_while c0_or_space s), (rev (drop_while c0_or_space (rev d))), (rev (take_while c0_or_space (rev d))).
    split; [|split; [|split; [|split; [|split]]]].
    + rewrite <- rev_app_distr, take_drop, rev_involutive. unfold d. symmetry. apply take_drop.
    + apply (forallb_iff _ _ _ low_iff), take_while_all.
    + apply Forall_rev. apply (forallb_iff _ _ _ low_iff), take_while_all.
    + apply stops_low. pose proof (drop_while_stops c0_or_space s) as S. fold d in S.
      pose proof (take_drop c0_or_space (rev d)) as T. apply (f_equal (@rev ascii)) in T. rewrite rev_app_distr, rev_involutive in T.
      destruct (rev (drop_while c0_or_space (rev d))) as [|c m]; [exact I|]. rewrite <- T in S. exact S.
    + intros c x E. apply (f_equal (@rev ascii)) in E. rewrite rev_involutive, rev_app_distr in E. cbn [rev app] in E.
      pose proof (drop_while_stops c0_or_space (rev d)) as S. apply stops_low with (c := c) (x := rev x) in S; [exact S|exact E].
    + apply without_iff. reflexivity.
Qed.

(** ** Percent-encoding *)
Definition set_ok (f : ascii -> bool) (set : string) : Prop := forall c, f c = false <-> stays set c.
Definition staysb (set : string) (c : ascii) : bool := in_range 33 126 c && negb (existsb (Ascii.eqb c) (list_ascii_of_string set)).
Lemma staysb_iff (set : string) (c : ascii) : staysb set c = true <-> stays set c.
Proof.
  unfold staysb, stays, in_range, code, one_of. rewrite !andb_true_iff, negb_true_iff, !N.leb_le.
  split; intros [A B]; (split; [exact A|]).
  - intro I. assert (E : existsb (Ascii.eqb c) (list_ascii_of_string set) = true) by (apply existsb_exists; exists c; now rewrite Ascii.eqb_refl). congruence.
  - apply not_true_iff_false. intro E. apply existsb_exists in E. destruct E as (d & I & F). apply Ascii.eqb_eq in F. now subst.
Qed.
Lemma set_ok_sweep (f : ascii -> bool) (set : string) :
  forallb (fun c => Bool.eqb (f c) (negb (staysb set c))) all_bytes = true -> set_ok f set.
Proof.
  intros H c. pose proof (byte_all _ H c) as E. apply Bool.eqb_prop in E. rewrite E, negb_false_iff. apply staysb_iff.
Qed.
Lemma path_ok : set_ok enc_path path_set. Proof. apply set_ok_sweep. vm_compute. reflexivity. Qed.
Lemma userinfo_ok : set_ok enc_userinfo userinfo_set. Proof. apply set_ok_sweep. vm_compute. reflexivity. Qed.
Lemma query_ok : set_ok enc_query query_set. Proof. apply set_ok_sweep. vm_compute. reflexivity. Qed.
Lemma fragment_ok : set_ok enc_fragment fragment_set. Proof. apply set_ok_sweep. vm_compute. reflexivity. Qed.
Lemma encoded_iff (f : ascii -> bool) (set : string) : set_ok f set -> forall s t, encoded set s t <-> t = percent_encode f s.
Proof.
  intros K s t. split.
  - induction 1 as [|c s t S _ IH|c s t S _ IH]; [reflexivity| |]; unfold percent_encode in *; cbn [map List.concat]; unfold encode_byte at 1.
    + apply K in S. now rewrite S, <- IH.
    + rewrite <- (K c) in S. apply not_false_iff_true in S. rewrite S, <- IH. reflexivity.
  - intros ->. induction s as [|c s IH]; [constructor|]. unfold percent_encode. cbn [map List.concat]. unfold encode_byte at 1.
    destruct (f c) eqn:E.
    + apply encoded_byte; [|exact IH]. rewrite <- (K c). congruence.
    + apply encoded_stay; [now apply K|exact IH].
Qed.
(** What is encoded stays. *)
Lemma encoded_stays (set : string) (s t : str) : (forall c, one_of set c -> c <> "%"%char /\ ~ digit c /\ ~ letter c) ->
  encoded set s t -> Forall (stays set) t.
Proof.
  intro H. assert (U : forall v, (v < 16)%N -> stays set (hex_upper v)).
  { intros v V. split.
    - unfold hex_upper. destruct (v <? 10)%N eqn:E; rewrite N_ascii_embedding; lia.
    - intro I. apply H in I. destruct I as (_ & D & L). unfold digit, letter, hex_upper in *.
      destruct (v <? 10)%N eqn:E; rewrite N_ascii_embedding in *; lia. }
  induction 1 as [|c s t S _ IH|c s t S _ IH]; [constructor|now constructor|].
  pose proof (N_ascii_bounded c). constructor; [|constructor; [|constructor; [|exact IH]]].
  - split; [cbn; lia|]. intro I. now apply H in I.
  - apply U. lia.
  - apply U. lia.
Qed.
Lemma stays_encoded (set : string) (s : str) : Forall (stays set) s -> encoded set s s.
Proof. induction 1; now constructor. Qed.
Lemma encoded_fun (f : ascii -> bool) (set : string) (s t t' : str) : set_ok f set -> encoded set s t -> encoded set s t' -> t = t'.
Proof. intros K A B. apply (encoded_iff f set K) in A, B. congruence. Qed.

(** ** Segments *)
Lemma slash_iff (c : ascii) : url_slash c = true <-> slash c.
Proof. unfold url_slash, slash. now rewrite orb_true_iff, !Ascii.eqb_eq. Qed.
Lemma slash_false (c : ascii) : url_slash c = false <-> ~ slash c.
Proof. rewrite <- slash_iff. now rewrite not_true_iff_false. Qed.
Lemma split_slash_none (s : str) : Forall (fun c => ~ slash c) s -> split_slash s = [s].
Proof.
  induction 1 as [|c s H _ IH]; [reflexivity|]. cbn [split_slash]. apply slash_false in H. now rewrite H, IH.
Qed.
Lemma split_slash_app (a : str) (c : ascii) (s : str) : Forall (fun c => ~ slash c) a -> slash c -> split_slash (a ++ c :: s) = a :: split_slash s.
Proof.
  intros A C. induction A as [|x a H _ IH]; cbn [app split_slash].
  - apply slash_iff in C. now rewrite C.
  - apply slash_false in H. now rewrite H, IH.
Qed.
Lemma segments_iff (s : str) (l : list str) : segments s l <-> l = split_slash s.
Proof.
  split.
  - induction 1 as [s H|a c s l A C _ IH]; [now rewrite split_slash_none|]. now rewrite split_slash_app, IH.
  - intros ->. induction s as [|c s IH]; [constructor; constructor|]. cbn [split_slash]. destruct (url_slash c) eqn:E.
    + apply (segments_more [] c); [constructor|now apply slash_iff|exact IH].
    + apply slash_false in E. inversion IH as [s' H Es El|a d s' l A D S Es El].
      * apply segments_last. now constructor.
      * apply (segments_more (c :: a) d); [now constructor|exact D|exact S].
Qed.

(** ** Dot segments *)
Lemma dot_iff (s : str) : single_dot s = true <-> dot s.
Proof. unfold single_dot, dot. rewrite !orb_true_iff, !str_eqb_eq. cbn [In]. intuition. Qed.
Lemma dots_iff (s : str) : double_dot s = true <-> dots s.
Proof.
  unfold double_dot. rewrite existsb_exists. split.
  - intros (x & I & E). apply str_eqb_eq in E. subst x. unfold dots, dot.
    destruct I as [<-|[<-|[<-|[<-|[<-|[<-|[<-|[<-|[<-|[]]]]]]]]]].
    + exists $".", $"."; cbn [In]; auto 10.
    + exists $"%2e", $"%2e"; cbn [In]; auto 10.
    + exists $"%2e", $"%2E"; cbn [In]; auto 10.
    + exists $"%2E", $"%2e"; cbn [In]; auto 10.
    + exists $"%2E", $"%2E"; cbn [In]; auto 10.
    + exists $"%2e", $"."; cbn [In]; auto 10.
    + exists $"%2E", $"."; cbn [In]; auto 10.
    + exists $".", $"%2e"; cbn [In]; auto 10.
    + exists $".", $"%2E"; cbn [In]; auto 10.
  - intros (a & b & A & B & ->). exists (a ++ b). split; [|apply str_eqb_refl]. unfold dot in *. cbn [In] in A, B.
    destruct A as [<-|[<-|[<-|[]]]], B as [<-|[<-|[<-|[]]]]; cbn [In s2b list_ascii_of_string app]; tauto.
Qed.
Lemma dots_not_dot (s : str) : dots s -> ~ dot s.
Proof.
  intros (a & b & A & B & ->) D. unfold dot in *. cbn [In] in A, B, D.
  destruct A as [<-|[<-|[<-|[]]]], B as [<-|[<-|[<-|[]]]]; destruct D as [E|[E|[E|[]]]]; discriminate E.
Qed.
Lemma letter_iff (c : ascii) : is_alpha c = true <-> letter c.
Proof. unfold is_alpha, is_lower, is_upper, in_range, letter, code. rewrite orb_true_iff, !andb_true_iff, !N.leb_le. tauto. Qed.
Lemma drive_iff (s : str) : drive_letter s = true <-> drive s.
Proof.
  unfold drive_letter, drive. destruct s as [|a [|b [|c s]]]; try (split; [discriminate|intros (x & y & E & _); discriminate]).
  rewrite andb_true_iff, orb_true_iff, !Ascii.eqb_eq, letter_iff. split.
  - intros (A & B). exists a, b. auto.
  - intros (x & y & E & A & B). injection E as <- <-. auto.
Qed.

Definition step (acc : list str) (x : str) : list str :=
  if double_dot x then shorten acc else if single_dot x then acc else x :: acc.
Lemma reached_iff (l d : list str) : reached l d <-> d = rev (fold_left step l []).
Proof.
  split.
  - induction 1 as [|l d x _ IH N1 N2|l d x _ IH D|l d y x _ IH D N|l d y x _ IH D N|l x _ IH D]; [reflexivity| | | | |];
      rewrite fold_left_app; cbn [fold_left]; unfold step at 1.
    + rewrite <- dot_iff in N1. rewrite <- dots_iff in N2. apply not_true_iff_false in N1, N2. rewrite N1, N2. cbn [rev]. now rewrite <- IH.
    + pose proof D as D'. apply dot_iff in D. destruct (double_dot x) eqn:E; [apply dots_iff in E; now apply dots_not_dot in E|]. now rewrite D.
    + apply dots_iff in D. rewrite D. apply (f_equal (@rev str)) in IH. rewrite rev_involutive, rev_app_distr in IH. cbn [rev app] in IH.
      rewrite <- IH. cbn [shorten]. rewrite <- drive_iff in N. apply not_true_iff_false in N. rewrite N. now rewrite rev_involutive.
    + apply dots_iff in D. rewrite D. pose proof IH as IH'. apply (f_equal (@rev str)) in IH. rewrite rev_involutive, rev_app_distr in IH. cbn [rev app] in IH.
      rewrite <- IH. cbn [shorten]. apply drive_iff in N. rewrite N. cbn [rev]. now rewrite rev_involutive.
    + apply dots_iff in D. rewrite D. apply (f_equal (@rev str)) in IH. rewrite rev_involutive in IH. cbn [rev] in IH. now rewrite <- IH.
  - intros ->. induction l as [|x l IH] using rev_ind; [constructor|]. rewrite fold_left_app. cbn [fold_left]. unfold step at 1.
    destruct (double_dot x) eqn:E1; [|destruct (single_dot x) eqn:E2].
    + apply dots_iff in E1. destruct (fold_left step l []) as [|y acc]; [now apply reached_top|]. cbn [rev] in IH. cbn [shorten].
      destruct (drive_letter y) eqn:E; [apply drive_iff in E; cbn [rev]; now apply reached_drive|].
      eapply reached_up; [exact IH|exact E1|]. rewrite <- drive_iff. congruence.
    + apply reached_stay; [exact IH|now apply dot_iff].
    + cbn [rev]. apply reached_enter; [exact IH| |]; [rewrite <- dot_iff|rewrite <- dots_iff]; congruence.
Qed.

Lemma path_loop_snoc (l : list str) (x : str) (acc : list str) :
  path_loop acc (l ++ [x]) =
  let acc' := fold_left step (map (percent_encode enc_path) l) acc in
  let e := percent_encode enc_path x in
  if double_dot e || single_dot e then path_join (step acc' e) [] else path_join acc' e.
Proof.
  revert acc. induction l as [|y l IH]; intro acc; cbn [app path_loop map fold_left].
  - unfold step. destruct (double_dot (percent_encode enc_path x)); [reflexivity|].
    destruct (single_dot (percent_encode enc_path x)); reflexivity.
  - replace (match l ++ [x] with [] => path_join acc (percent_encode enc_path y) | _ :: _ => path_loop (percent_encode enc_path y :: acc) (l ++ [x]) end)
      with (path_loop (percent_encode enc_path y :: acc) (l ++ [x])) by (destruct l; reflexivity).
    rewrite !IH. assert (S : step acc (percent_encode enc_path y) = if double_dot (percent_encode enc_path y) then shorten acc
      else if single_dot (percent_encode enc_path y) then acc else percent_encode enc_path y :: acc) by reflexivity.
    rewrite S. destruct (double_dot (percent_encode enc_path y)); [reflexivity|].
    destruct (single_dot (percent_encode enc_path y)); reflexivity.
Qed.
Lemma split_slash_snoc (s : str) : exists l x, split_slash s = l ++ [x].
Proof.
  destruct (split_slash s) as [|y l] eqn:E.
  - exfalso. assert (S : segments s []) by (apply segments_iff; congruence). inversion S.
  - destruct (@exists_last _ (y :: l)) as (l' & x & F); [discriminate|]. rewrite F. eauto.
Qed.
Lemma Forall2_encoded (l l' : list str) : Forall2 (encoded path_set) l l' <-> l' = map (percent_encode enc_path) l.
Proof.
  split.
  - induction 1 as [|x y l l' H _ IH]; [reflexivity|]. apply (encoded_iff _ _ path_ok) in H. cbn [map]. now rewrite IH, H.
  - intros ->. induction l as [|x l IH]; constructor; [now apply (encoded_iff _ _ path_ok)|exact IH].
Qed.
Lemma path_join_dir (acc : list str) (x : str) : path_join acc x = directory_text (rev acc) ++ x.
Proof. unfold path_join, directory_text. now rewrite <- app_assoc. Qed.
Lemma path_of_iff (s t : str) : path_of s t <-> t = path_loop [] (split_slash s).
Proof.
  unfold path_of. split.
  - intros (segs & l & d & S & F & H). apply segments_iff in S. subst segs. apply Forall2_encoded in F.
    destruct (split_slash_snoc s) as (l0 & x0 & E). rewrite E in *. rewrite map_app in F. cbn [map] in F. rewrite path_loop_snoc. cbv zeta.
    destruct H as [(R & (l' & x & L & D) & ->)|(l' & x & L & R & N1 & N2 & ->)].
    + rewrite L in F. apply app_inj_tail in F. destruct F as (-> & ->).
      assert (B : double_dot (percent_encode enc_path x0) || single_dot (percent_encode enc_path x0) = true).
      { apply orb_true_iff. rewrite dots_iff, dot_iff. tauto. }
      rewrite B. apply reached_iff in R. rewrite L, fold_left_app in R. cbn [fold_left] in R. subst d. now rewrite path_join_dir, app_nil_r.
    + rewrite L in F. apply app_inj_tail in F. destruct F as (-> & ->). rewrite <- dot_iff in N1. rewrite <- dots_iff in N2.
      apply not_true_iff_false in N1, N2. rewrite N1, N2. cbn [orb]. apply reached_iff in R. subst d. now rewrite path_join_dir.
  - intros ->. destruct (split_slash_snoc s) as (l0 & x0 & E). rewrite E, path_loop_snoc. cbv zeta.
    set (e := percent_encode enc_path x0). set (l := map (percent_encode enc_path) l0).
    destruct (double_dot e || single_dot e) eqn:B.
    + exists (l0 ++ [x0]), (l ++ [e]), (rev (step (fold_left step l []) e)). split; [now apply segments_iff|].
      split; [apply Forall2_encoded; now rewrite map_app|]. left. split; [apply reached_iff; now rewrite fold_left_app|].
      split; [|now rewrite path_join_dir, app_nil_r]. exists l, e. split; [reflexivity|].
      apply orb_true_iff in B. rewrite dots_iff, dot_iff in B. tauto.
    + exists (l0 ++ [x0]), (l ++ [e]), (rev (fold_left step l [])). split; [now apply segments_iff|].
      split; [apply Forall2_encoded; now rewrite map_app|]. right. exists l, e. split; [reflexivity|].
      split; [now apply reached_iff|]. apply orb_false_iff in B. destruct B as (B1 & B2).
      split; [rewrite <- dot_iff; congruence|]. split; [rewrite <- dots_iff; congruence|]. now rewrite path_join_dir.
Qed.

(** ** Scheme *)
Lemma scheme_char_iff (c : ascii) : scheme_char c = true <-> letter c \/ digit c \/ one_of "+-." c.
Proof.
  unfold scheme_char. rewrite !orb_true_iff, !Ascii.eqb_eq, letter_iff. unfold is_digit, in_range, digit, code, one_of.
  rewrite andb_true_iff, !N.leb_le. cbn [list_ascii_of_string In]. intuition.
Qed.
Lemma parse_scheme_iff (t sch' rest : str) : parse_scheme t = Some (sch', rest) <->
  exists sch, t = sch ++ ":"%char :: rest /\ scheme_text sch /\ Forall2 lower_of sch sch'.
Proof.
  split.
  - unfold parse_scheme. destruct t as [|c t']; [discriminate|]. destruct (is_alpha c) eqn:A; [|discriminate].
    pose proof (take_drop scheme_char (c :: t')) as T. destruct (drop_while scheme_char (c :: t')) as [|d r]; [discriminate|].
    destruct (Ascii.eqb_spec d ":") as [->|]; [|discriminate]. intro H. injection H as <- <-.
    exists (take_while scheme_char (c :: t')). split; [now symmetry|]. split; [|now apply Forall2_lower]. split.
    + exists c, (take_while scheme_char t'). split; [|now apply letter_iff]. cbn [take_while]. unfold scheme_char at 1. now rewrite A.
    + apply (forallb_iff _ _ _ scheme_char_iff), take_while_all.
  - intros (sch & -> & ((c & s' & -> & L) & F) & E). apply Forall2_lower in E. unfold parse_scheme. cbn [app].
    apply letter_iff in L. rewrite L. change (c :: s' ++ ":"%char :: rest) with ((c :: s') ++ ":"%char :: rest).
    apply (forallb_iff _ _ _ scheme_char_iff) in F. rewrite drop_while_app, take_while_app by (exact F || reflexivity). cbn [Ascii.eqb].
    now rewrite E.
Qed.
Lemma default_port_iff (s : str) (p : N) : default_port s = Some p <-> scheme_port s p.
Proof.
  unfold default_port, scheme_port. cbn [In]. split.
  - destruct (str_eqb s $"http") eqn:E1; [apply str_eqb_eq in E1; subst s; cbn [orb]; intro H; injection H as <-; auto|].
    destruct (str_eqb s $"ws") eqn:E2; [apply str_eqb_eq in E2; subst s; cbn [orb]; intro H; injection H as <-; auto|].
    destruct (str_eqb s $"https") eqn:E3; [apply str_eqb_eq in E3; subst s; cbn [orb]; intro H; injection H as <-; auto|].
    destruct (str_eqb s $"wss") eqn:E4; [apply str_eqb_eq in E4; subst s; cbn [orb]; intro H; injection H as <-; auto 6|].
    cbn [orb]. destruct (str_eqb s $"ftp") eqn:E5; [apply str_eqb_eq in E5; subst s; intro H; injection H as <-; auto 7|discriminate].
  - intros [E|[E|[E|[E|[E|[]]]]]]; injection E as <- <-; reflexivity.
Qed.
Lemma special_iff (s : str) : special s <-> default_port s <> None.
Proof.
  unfold special. split.
  - intros (p & P). apply default_port_iff in P. congruence.
  - destruct (default_port s) as [p|] eqn:E; [|contradiction]. intros _. exists p. now apply default_port_iff.
Qed.

(** ** Authority *)
Lemma split_last_iff (c : ascii) (s a b : str) : split_last c s = Some (a, b) <-> s = a ++ c :: b /\ ~ In c b.
Proof.
  assert (N : forall s, split_last c s = None -> ~ In c s).
  { clear. induction s as [|x s IH]; cbn [split_last]; [easy|]. destruct (split_last c s) as [[a b]|]; [discriminate|].
    destruct (Ascii.eqb_spec x c) as [->|N]; [discriminate|]. intros _ [E|I]; [congruence|]. now apply IH. }
  revert a b. induction s as [|x s IH]; intros a b; cbn [split_last].
  - split; [discriminate|]. intros [E _]. destruct a; discriminate.
  - destruct (split_last c s) as [[a' b']|] eqn:S.
    + destruct (IH a' b') as [IH1 _]. destruct (IH1 eq_refl) as (E & Nb). split.
      * intro H. injection H as <- <-. rewrite E. auto.
      * intros (F & Nb'). destruct a as [|y a]; cbn [app] in F; injection F as -> F.
        -- exfalso. apply Nb'. rewrite <- F, E. apply in_or_app. right. now left.
        -- destruct (IH a b) as [_ IH2]. pose proof (IH2 (conj F Nb')) as IH3. injection IH3 as <- <-. reflexivity.
    + destruct (Ascii.eqb_spec x c) as [->|Nx].
      * split; [intro H; injection H as <- <-; split; [reflexivity|now apply N]|].
        intros (F & Nb). destruct a as [|y a]; cbn [app] in F; [injection F as ->; reflexivity|injection F as F0 F].
        exfalso. apply (N s S). rewrite F. apply in_or_app. right. now left.
      * split; [discriminate|]. intros (F & Nb). destruct a as [|y a]; cbn [app] in F; injection F as F0 F; [congruence|].
        exfalso. apply (N s S). rewrite F. apply in_or_app. right. now left.
Qed.
Lemma split_last_none (c : ascii) (s : str) : split_last c s = None <-> ~ In c s.
Proof.
  split.
  - intros H I. apply in_split in I. destruct I as (a & b & E).
    assert (G : forall s, In c s -> split_last c s <> None).
    { clear. induction s as [|x s IH]; [easy|]. intros [->|I]; cbn [split_last].
      - destruct (split_last c s) as [[]|]; [discriminate|]. now rewrite Ascii.eqb_refl.
      - destruct (split_last c s) as [[]|] eqn:E; [discriminate|]. now apply IH in I. }
    apply (G s); [|exact H]. rewrite E. apply in_or_app. right. now left.
  - intro N. destruct (split_last c s) as [[a b]|] eqn:E; [|reflexivity]. apply split_last_iff in E. destruct E as (E & _).
    exfalso. apply N. rewrite E. apply in_or_app. right. now left.
Qed.
Lemma credentials_iff (c n : str) (p : option str) : credentials c n p <->
  match split_once ":" c with
  | None => n = percent_encode enc_userinfo c /\ p = None
  | Some (x, []) => n = percent_encode enc_userinfo x /\ p = None
  | Some (x, y) => n = percent_encode enc_userinfo x /\ p = Some (percent_encode enc_userinfo y)
  end.
Proof.
  pose proof (encoded_iff _ _ userinfo_ok) as K. split.
  - destruct 1 as [x x' N E|x x' N E|x x' y y' N E Ny Ey].
    + apply split_once_none in N. rewrite N. apply K in E. auto.
    + assert (S : split_once ":" (x ++ $":") = Some (x, [])) by (apply split_once_spec; auto). rewrite S. apply K in E. auto.
    + assert (S : split_once ":" (x ++ ":"%char :: y) = Some (x, y)) by (apply split_once_spec; auto). rewrite S. apply K in E, Ey.
      destruct y as [|c y]; [contradiction|]. subst. auto.
  - destruct (split_once ":" c) as [[x [|d y]]|] eqn:S.
    + apply split_once_spec in S. destruct S as (-> & N). intros (-> & ->). apply cred_empty; [exact N|now apply K].
    + apply split_once_spec in S. destruct S as (-> & N). intros (-> & ->). apply cred_both; [exact N|now apply K|discriminate|now apply K].
    + apply split_once_none in S. intros (-> & ->). apply cred_name; [exact S|now apply K].
Qed.
Lemma split_host_iff (b : bool) (s h p : str) : split_host b s = (h, p) <->
  s = h ++ p /\ (p = [] \/ exists p', p = ":"%char :: p') /\ exists e, bracketed b h e /\ (p = [] \/ e = false).
Proof.
  revert b h p. induction s as [|c s IH]; intros b h p; cbn [split_host].
  - split.
    + intro H. injection H as <- <-. split; [reflexivity|]. split; [now left|]. exists b. split; [constructor|now left].
    + intros (E & _). destruct h; [destruct p; [reflexivity|discriminate]|discriminate].
  - destruct (Ascii.eqb_spec c ":") as [->|Nc].
    + destruct b; cbn [andb negb].
      * change (Ascii.eqb ":" "[") with false. change (Ascii.eqb ":" "]") with false. cbn iota. destruct (split_host true s) as [h' p'] eqn:S. split.
        -- intro H. injection H as <- <-. apply IH in S. destruct S as (-> & P & e & B & F). split; [reflexivity|]. split; [exact P|].
           exists e. split; [now constructor|exact F].
        -- intros (E & P & e & B & F). destruct h as [|x h]; cbn [app] in E.
           ++ inversion B; subst. destruct F as [F|F]; discriminate F.
           ++ injection E as <- E. assert (B' : bracketed true h e) by (inversion B; subst; try contradiction; assumption).
              destruct (IH true h p) as [_ IH2]. rewrite IH2 in S by eauto. injection S as <- <-. reflexivity.
      * split.
        -- intro H. injection H as <- <-. split; [reflexivity|]. split; [right; eauto|]. exists false. split; [constructor|now right].
        -- intros (E & P & e & B & F). destruct h as [|x h]; cbn [app] in E; [now rewrite E|]. injection E as <- E.
           exfalso. inversion B; subst; try contradiction.
    + set (i := if Ascii.eqb c "[" then true else if Ascii.eqb c "]" then false else b). cbn [andb]. destruct (split_host i s) as [h' p'] eqn:S.
      assert (W : forall h e, bracketed b (c :: h) e <-> bracketed i h e).
      { intros h0 e. unfold i. destruct (Ascii.eqb_spec c "[") as [->|N1]; [split; [inversion 1; subst; try contradiction; assumption|now constructor]|].
        destruct (Ascii.eqb_spec c "]") as [->|N2]; [split; [inversion 1; subst; try contradiction; assumption|now constructor]|].
        split; [inversion 1; subst; try contradiction; assumption|now constructor]. }
      split.
      * intro H. injection H as <- <-. apply IH in S. destruct S as (-> & P & e & B & F). split; [reflexivity|]. split; [exact P|].
        exists e. split; [now apply W|exact F].
      * intros (E & P & e & B & F). destruct h as [|x h]; cbn [app] in E.
        -- destruct P as [-> | (p0 & ->)]; [discriminate|]. injection E as E0 _. congruence.
        -- injection E as <- E. apply W in B. destruct (IH i h p) as [_ IH2]. rewrite IH2 in S by eauto. injection S as <- <-. reflexivity.
Qed.
Lemma digits_value_eq (s : str) (acc : N) : digits_value acc s = numeral_value acc s.
Proof.
  revert acc. induction s as [|c s IH]; intro acc; cbn [digits_value numeral_value]; [reflexivity|].
  unfold is_digit, in_range, digit_of, code. cbv zeta. destruct ((48 <=? N_of_ascii c) && (N_of_ascii c <=? 57))%N; [|reflexivity].
  rewrite IH. f_equal. lia.
Qed.
Lemma scheme_port_fun (s : str) (p q : N) : scheme_port s p -> scheme_port s q -> p = q.
Proof. intros P Q. apply default_port_iff in P, Q. congruence. Qed.
Lemma scheme_port_le (s : str) (p : N) : scheme_port s p -> (p <= 65535)%N.
Proof. intros [E|[E|[E|[E|[E|[]]]]]]; injection E as <- <-; lia. Qed.
Lemma parse_port_iff (sch pt : str) (o : option N) : (pt = [] \/ exists p', pt = ":"%char :: p') ->
  (parse_port sch pt = Some o <-> port_of sch pt o).
Proof.
  intros [-> | (ds & ->)].
  - split; [intro H; injection H as <-; constructor|inversion 1; reflexivity].
  - destruct ds as [|d ds].
    + split; [intro H; injection H as <-; apply port_empty|inversion 1; subst; try contradiction; reflexivity].
    + cbn [parse_port]. rewrite digits_value_eq. set (l := d :: ds). split.
      * destruct (numeral_value 0 l) as [n|] eqn:V; [|discriminate]. destruct (65535 <? n)%N eqn:L; [discriminate|].
        intro H. injection H as <-. destruct (default_port sch) as [dp|] eqn:D.
        -- apply default_port_iff in D. destruct (N.eqb_spec n dp) as [->|N]; [now apply (port_default sch l dp)|].
           apply (port_given sch l n); [discriminate|exact V|lia|]. intro P. now apply (scheme_port_fun sch n dp) in P.
        -- apply (port_given sch l n); [discriminate|exact V|lia|]. intro P. apply default_port_iff in P. congruence.
      * inversion 1 as [|E0 E1|ds' p Nd V P|ds' p Nd V Lp P]; subst.
        -- rewrite V. pose proof (scheme_port_le _ _ P). replace (65535 <? p)%N with false by lia. apply default_port_iff in P. rewrite P. now rewrite N.eqb_refl.
        -- rewrite V. replace (65535 <? p)%N with false by lia. destruct (default_port sch) as [dp|] eqn:D; [|reflexivity].
           destruct (N.eqb_spec p dp) as [->|]; [|reflexivity]. apply default_port_iff in D. contradiction.
Qed.
Lemma port_of_shape (sch pt : str) (o : option N) : port_of sch pt o -> pt = [] \/ exists p', pt = ":"%char :: p'.
Proof. destruct 1; [now left|right; now exists []|right; eauto|right; eauto]. Qed.

Lemma authority_iff (hp : host_parser) (sch a : str) (u : url) : authority_of hp sch a u <->
  exists n pw hps h p, parse_userinfo a = (n, pw, hps) /\ split_host false hps = (h, p) /\ h <> []
    /\ u_username u = n /\ u_password u = pw /\ hp h = u_host u /\ u_host u <> None /\ parse_port sch p = Some (u_port u).
Proof.
  assert (S : forall hps h p, split_host false hps = (h, p) -> hps = h ++ p /\ (p = [] \/ exists p', p = ":"%char :: p') /\ (h <> [] -> host_text h p)).
  { intros hps h p H. apply split_host_iff in H. destruct H as (E & P & e & B). split; [exact E|]. split; [exact P|]. intro N. split; [exact N|eauto]. }
  split.
  - destruct 1 as [h pt u A U W (N & e & B) H Hn P|c h pt u C A (N & e & B) H Hn P].
    + exists [], None, (h ++ pt), h, pt. pose proof (port_of_shape _ _ _ P) as Sh. split.
      * unfold parse_userinfo. apply split_last_none in A. now rewrite A.
      * split; [apply split_host_iff; eauto|]. repeat (split; [assumption|]). now apply parse_port_iff.
    + pose proof (port_of_shape _ _ _ P) as Sh. apply credentials_iff in C.
      exists (u_username u), (u_password u), (h ++ pt), h, pt. split.
      * unfold parse_userinfo. assert (L : split_last "@" (c ++ "@"%char :: h ++ pt) = Some (c, h ++ pt)) by (apply split_last_iff; auto).
        rewrite L. destruct (split_once ":" c) as [[x [|d y]]|]; destruct C as (-> & ->); reflexivity.
      * split; [apply split_host_iff; eauto|]. repeat (split; [assumption || reflexivity|]). now apply parse_port_iff.
  - intros (n & pw & hps & h & p & U & H & N & Un & Up & Hh & Hn & P). apply S in H. destruct H as (E & Sh & T). specialize (T N).
    apply (parse_port_iff _ _ _ Sh) in P. unfold parse_userinfo in U. destruct (split_last "@" a) as [[c r]|] eqn:L.
    + apply split_last_iff in L. destruct L as (-> & A).
      assert (Er : r = h ++ p). { destruct (split_once ":" c) as [[x [|d y]]|]; injection U as _ _ U; congruence. }
      rewrite Er in *. apply authority_user; try assumption. apply credentials_iff.
      destruct (split_once ":" c) as [[x [|d y]]|]; injection U as U1 U2 _; rewrite Un, Up, <- U1, <- U2; auto.
    + injection U as <- <- U. subst a hps. apply split_last_none in L. now apply authority_plain.
Qed.

(** ** The whole text *)
Lemma ends_path_iff (c : ascii) : negb (ends_path c) = true <-> c <> "?"%char /\ c <> "#"%char.
Proof. unfold ends_path. rewrite negb_orb, andb_true_iff, !negb_true_iff, !Ascii.eqb_neq. reflexivity. Qed.
Lemma ends_authority_iff (c : ascii) : negb (ends_authority c) = true <-> ~ slash c /\ c <> "?"%char /\ c <> "#"%char.
Proof. unfold ends_authority. rewrite negb_orb, andb_true_iff, ends_path_iff, negb_true_iff, slash_false. reflexivity. Qed.
Definition not_hash (c : ascii) : bool := negb (Ascii.eqb c "#").
Lemma not_hash_iff (s : str) : forallb not_hash s = true <-> ~ In "#"%char s.
Proof.
  unfold not_hash. rewrite forallb_forall. split.
  - intros H I. apply H in I. discriminate I.
  - intros H c I. apply negb_true_iff, Ascii.eqb_neq. intros ->. contradiction.
Qed.
Lemma parse_query_iff (s : str) (oq of : option str) : stops (fun c => negb (ends_path c)) s ->
  (parse_query s = (oq, of) <-> exists q f, s = q ++ f /\ tail_of "?" query_set oq q /\ ~ In "#"%char q /\ tail_of "#" fragment_set of f).
Proof.
  pose proof (encoded_iff _ _ query_ok) as KQ. pose proof (encoded_iff _ _ fragment_ok) as KF. intro S. split.
  - destruct s as [|c s]; cbn [parse_query].
    + intro H. injection H as <- <-. exists [], []. cbn [tail_of]. auto.
    + cbn [stops] in S. fold not_hash. destruct (Ascii.eqb_spec c "?") as [->|N].
      * pose proof (take_drop not_hash s) as T. pose proof (drop_while_stops not_hash s) as St. pose proof (take_while_all not_hash s) as A.
        destruct (drop_while not_hash s) as [|d r] eqn:D.
        -- intro H. injection H as <- <-. exists ("?"%char :: take_while not_hash s), []. cbn [tail_of]. split; [|split; [|split]].
           ++ cbn [app]. now rewrite <- T at 1.
           ++ exists (take_while not_hash s). split; [reflexivity|now apply KQ].
           ++ intros [E|I]; [discriminate|]. apply not_hash_iff in A. contradiction.
           ++ reflexivity.
        -- intro H. injection H as <- <-. exists ("?"%char :: take_while not_hash s), (d :: r). split; [|split; [|split]].
           ++ cbn [app]. now rewrite <- T at 1.
           ++ exists (take_while not_hash s). split; [reflexivity|now apply KQ].
           ++ intros [E|I]; [discriminate|]. apply not_hash_iff in A. contradiction.
           ++ cbn [stops] in St. unfold not_hash in St. apply negb_false_iff, Ascii.eqb_eq in St. subst d. exists r. split; [reflexivity|now apply KF].
      * intro H. injection H as <- <-. unfold ends_path in S. apply negb_false_iff, orb_true_iff in S. rewrite !Ascii.eqb_eq in S.
        destruct S as [-> | ->]; [contradiction|]. exists [], ("#"%char :: s). cbn [tail_of app]. split; [reflexivity|]. split; [reflexivity|]. split; [easy|].
        exists s. split; [reflexivity|now apply KF].
  - intros (q & f & -> & Q & N & F).
    assert (Ff : of = match f with [] => None | _ :: t' => Some (percent_encode enc_fragment t') end /\ stops not_hash f).
    { destruct of as [e|]; cbn [tail_of] in F; [destruct F as (t & -> & F); apply KF in F; now rewrite F|now subst f]. }
    destruct Ff as (-> & St). destruct oq as [e|]; cbn [tail_of] in Q.
    + destruct Q as (t & -> & E). apply KQ in E. subst e. cbn [app parse_query]. change (Ascii.eqb "?" "?") with true. cbv iota. fold not_hash.
      assert (Nt : forallb not_hash t = true) by (apply not_hash_iff; intro I; apply N; now right).
      rewrite take_while_app, drop_while_app by assumption. reflexivity.
    + subst q. cbn [app]. destruct f as [|c f]; [reflexivity|]. cbn [parse_query]. cbn [stops] in St. unfold not_hash in St.
      apply negb_false_iff, Ascii.eqb_eq in St. subst c. reflexivity.
Qed.

Lemma tail_stops (c : ascii) (set : string) (o : option str) (t : str) (f : ascii -> bool) : tail_of c set o t -> f c = false -> stops f t.
Proof. destruct o as [e|]; cbn [tail_of]; [intros (x & -> & _) H; exact H|intros -> _; exact I]. Qed.
Lemma stops_app (f : ascii -> bool) (a b : str) : stops f a -> stops f b -> stops f (a ++ b).
Proof. destruct a; [easy|auto]. Qed.
Lemma parse_special_iff (hp : host_parser) (sch s : str) (u : url) : u_scheme u = sch -> u_has_authority u = true ->
  (parse_special hp sch s = Ok u <->
   exists auth path q f, s = auth ++ path ++ q ++ f
     /\ Forall (fun c => ~ slash c /\ c <> "?"%char /\ c <> "#"%char) auth /\ authority_of hp sch auth u
     /\ Forall (fun c => c <> "?"%char /\ c <> "#"%char) path
     /\ (path = [] /\ u_path u = $"/" \/ exists c path', path = c :: path' /\ slash c /\ path_of path' (u_path u))
     /\ tail_of "?" query_set (u_query u) q /\ ~ In "#"%char q
     /\ tail_of "#" fragment_set (u_fragment u) f).
Proof.
  intros Hs Ha. split.
  - unfold parse_special. set (auth := take_while _ s). set (rest := drop_while _ s).
    destruct (parse_userinfo auth) as [[n pw] hps] eqn:U. destruct (split_host false hps) as [h p] eqn:H.
    destruct h as [|c h]; [discriminate|]. destruct (hp (c :: h)) as [host|] eqn:Eh; [|discriminate].
    destruct (parse_port sch p) as [port|] eqn:Ep; [|discriminate].
    destruct (parse_query _) as [oq of] eqn:Q. intro E. injection E as <-. cbn [u_path u_query u_fragment].
    apply parse_query_iff in Q; [|apply drop_while_stops]. destruct Q as (q & f & Eq & Tq & Nq & Tf).
    exists auth, (take_while (fun c => negb (ends_path c)) rest), q, f. split; [|split; [|split; [|split; [|split; [|split; [|split]]]]]].
    + rewrite <- Eq, take_drop. symmetry. apply take_drop.
    + apply (forallb_iff _ _ _ ends_authority_iff), take_while_all.
    + apply authority_iff. exists n, pw, hps, (c :: h), p. cbn [u_username u_password u_host u_port]. repeat split; congruence || assumption.
    + apply (forallb_iff _ _ _ ends_path_iff), take_while_all.
    + assert (St : stops (fun c => negb (ends_authority c)) rest) by apply drop_while_stops. unfold parse_path.
      destruct rest as [|d r]; [now left|]. cbn [stops] in St. unfold ends_authority in St. apply negb_false_iff, orb_true_iff in St.
      cbn [take_while]. destruct St as [St|St].
      * assert (Nd : ends_path d = false). { apply slash_iff in St. destruct St as [-> | ->]; reflexivity. } rewrite Nd. cbn [negb]. rewrite St.
        right. exists d, (take_while (fun c => negb (ends_path c)) r). split; [reflexivity|]. split; [now apply slash_iff|now apply path_of_iff].
      * rewrite St. left. split; reflexivity.
    + exact Tq.
    + exact Nq.
    + exact Tf.
  - intros (auth & path & q & f & -> & Fa & A & Fp & P & Tq & Nq & Tf).
    apply (forallb_iff _ _ _ ends_authority_iff) in Fa. apply (forallb_iff _ _ _ ends_path_iff) in Fp.
    assert (Sq : forall g, g "?"%char = false -> g "#"%char = false -> stops g (q ++ f)).
    { intros g G1 G2. apply stops_app; [now apply (tail_stops "?" query_set (u_query u))|now apply (tail_stops "#" fragment_set (u_fragment u))]. }
    assert (Sa : stops (fun c => negb (ends_authority c)) (path ++ q ++ f)).
    { destruct P as [(-> & _)|(c & path' & -> & Sc & _)]; [now apply Sq|]. cbn [app stops]. apply slash_iff in Sc. unfold ends_authority. now rewrite Sc. }
    unfold parse_special. rewrite take_while_app, drop_while_app by assumption. rewrite take_while_app, drop_while_app by (assumption || now apply Sq).
    apply authority_iff in A. destruct A as (n & pw & hps & h & p & -> & -> & Nh & Un & Up & Hh & Hn & Ep).
    destruct h as [|c h]; [contradiction|]. rewrite Hh, Ep. destruct (u_host u) as [host|] eqn:Eh; [|contradiction].
    assert (Q : parse_query (q ++ f) = (u_query u, u_fragment u)). { apply parse_query_iff; [now apply Sq|]. exists q, f. auto. }
    rewrite Q. f_equal. assert (Ep' : parse_path path = u_path u).
    { unfold parse_path. destruct P as [(-> & ->)|(d & path' & -> & Sd & P)]; [reflexivity|]. apply slash_iff in Sd. rewrite Sd. apply path_of_iff in P. now symmetry. }
    rewrite Ep', <- Hs, <- Un, <- Up, <- Eh. rewrite <- Ha at 1. now destruct u.
Qed.
Lemma url_parse_special (hp : host_parser) (sp : scheme_parser) (s : str) (u : url) :
  (forall sch rest v, ~ special sch -> sp sch rest = Ok v -> ~ special (u_scheme v)) ->
  (special_url hp s u <-> url_parse hp sp s = Ok u /\ special (u_scheme u)).
Proof.
  intro K. split.
  - intros (t & sch & sl & auth & path & q & f & I & -> & T & L & Sp & Sl & Fa & A & Ha & R). split; [|exact Sp]. unfold url_parse.
    apply clean_iff in I. rewrite <- I.
    assert (P : parse_scheme (sch ++ $":" ++ sl ++ auth ++ path ++ q ++ f) = Some (u_scheme u, sl ++ auth ++ path ++ q ++ f)) by (apply parse_scheme_iff; eauto).
    rewrite P. pose proof Sp as Sp'. apply special_iff in Sp'. destruct (default_port (u_scheme u)); [|contradiction].
    assert (Na : auth <> []).
    { intros ->. apply authority_iff in A. destruct A as (n0 & pw & hps & h & p & U & H & N & _). cbn in U. injection U as <- <- <-. cbn in H. injection H as <- <-. now apply N. }
    rewrite drop_while_app.
    + apply parse_special_iff; [reflexivity|exact Ha|]. exists auth, path, q, f. split; [reflexivity|]. split; [exact Fa|]. split; [exact A|exact R].
    + now apply (forallb_iff _ _ _ slash_iff).
    + destruct auth as [|c auth]; [contradiction|]. cbn [app stops]. inversion Fa as [|x y (N & _) _]. now apply slash_false.
  - intros (H & Sp). unfold url_parse in H. destruct (parse_scheme (clean_input s)) as [[sch' rest]|] eqn:P; [|discriminate].
    destruct (default_port sch') as [dp|] eqn:D.
    + assert (Hu : u_scheme u = sch' /\ u_has_authority u = true).
      { unfold parse_special in H. destruct (parse_userinfo _) as [[n pw] hps]. destruct (split_host false hps) as [h p].
        destruct h as [|c h]; [discriminate|]. destruct (hp (c :: h)); [|discriminate]. destruct (parse_port sch' p); [|discriminate].
        destruct (parse_query _) as [oq of]. injection H as <-. now split. }
      destruct Hu as (Hs & Ha). apply (parse_special_iff hp sch' _ u Hs Ha) in H. destruct H as (auth & path & q & f & E & Fa & A & Fp & Pp & Tq & Nq & Tf).
      apply parse_scheme_iff in P. destruct P as (sch & Et & T & L). rewrite <- Hs in *.
      exists (clean_input s), sch, (take_while url_slash rest), auth, path, q, f. split; [now apply clean_iff|]. split; [|].
      * rewrite Et. cbn [s2b list_ascii_of_string app]. f_equal. f_equal. now rewrite <- E, take_drop.
      * split; [exact T|]. split; [exact L|]. split; [exact Sp|]. split; [apply (forallb_iff _ _ _ slash_iff), take_while_all|].
        split; [exact Fa|]. split; [exact A|]. split; [exact Ha|]. auto.
    + exfalso. apply (K sch' rest u); [|exact H|exact Sp]. rewrite special_iff. now rewrite D.
Qed.
