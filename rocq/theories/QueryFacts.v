(** UTF-8 and form decoding. *)
From Verif Require Export SpecQuery CanonFacts.
Local Open Scope N_scope.

(** ** UTF-8 *)
Definition wf_char (s : str) : bool :=
  match s with
  | [a] => is_ascii_byte a
  | [a; b] => in_range 194 223 a && is_cont b
  | [a; b; c] => in_range 224 239 a && second_ok a b && is_cont c
  | [a; b; c; d] => in_range 240 244 a && second_ok a b && is_cont c && is_cont d
  | _ => false
  end.
Definition wf_prefix (s : str) : bool :=
  match s with
  | [] => true
  | [a] => in_range 194 244 a
  | [a; b] => in_range 224 244 a && second_ok a b
  | [a; b; c] => in_range 240 244 a && second_ok a b && is_cont c
  | _ => false
  end.

Ltac divs := zify; Z.to_euclidean_division_equations; lia.

Lemma cons_eq {A} (x y : A) (l m : list A) : x :: l = y :: m -> x = y /\ l = m.
Proof. intro H. inversion H. auto. Qed.
Lemma utf8_char_wf (s : str) : utf8_char s <-> wf_char s = true.
Proof.
  split.
  - intros (n & Sc & E). unfold utf8_bytes in E.
    destruct (n <? 0x80) eqn:C1; [|destruct (n <? 0x800) eqn:C2; [|destruct (n <? 0x10000) eqn:C3]];
      destruct s as [|a [|b [|c [|d [|e s]]]]]; try discriminate;
      cbn [map] in E; unfold scalar in Sc; cbn [wf_char]; unfold is_ascii_byte, is_cont, second_ok, in_range, code, is_cont, in_range, code; cbv zeta.
    + injection E as ->. lia.
    + apply cons_eq in E; destruct E as [E1 E]. apply cons_eq in E; destruct E as [E2 E]. clear E. rewrite E1, E2. divs.
    + apply cons_eq in E; destruct E as [E1 E]. apply cons_eq in E; destruct E as [E2 E]. apply cons_eq in E; destruct E as [E3 E]. clear E. rewrite E1, E2, E3.
      destruct (0xE0 + n / 4096 =? 224) eqn:K1; [divs|]. destruct (0xE0 + n / 4096 =? 237) eqn:K2; [divs|].
      destruct (0xE0 + n / 4096 =? 240) eqn:K3; [divs|]. destruct (0xE0 + n / 4096 =? 244) eqn:K4; divs.
    + apply cons_eq in E; destruct E as [E1 E]. apply cons_eq in E; destruct E as [E2 E]. apply cons_eq in E; destruct E as [E3 E]. apply cons_eq in E; destruct E as [E4 E]. clear E. rewrite E1, E2, E3, E4.
      destruct (0xF0 + n / 262144 =? 224) eqn:K1; [divs|]. destruct (0xF0 + n / 262144 =? 237) eqn:K2; [divs|].
      destruct (0xF0 + n / 262144 =? 240) eqn:K3; [divs|]. destruct (0xF0 + n / 262144 =? 244) eqn:K4; divs.
  - destruct s as [|a [|b [|c [|d [|e s]]]]]; try discriminate; cbn [wf_char map];
      unfold is_ascii_byte, is_cont, second_ok, in_range, code; cbv zeta; unfold is_cont, in_range, code; intro H.
    + exists (N_of_ascii a). unfold scalar, utf8_bytes. split; [lia|]. destruct (N_of_ascii a <? 0x80) eqn:C1; [reflexivity|lia].
    + exists ((N_of_ascii a - 192) * 64 + (N_of_ascii b - 128)). unfold scalar, utf8_bytes. split; [lia|].
      cbn [map]. set (x := N_of_ascii a) in *. set (y := N_of_ascii b) in *.
      destruct ((x - 192) * 64 + (y - 128) <? 0x80) eqn:C1; [exfalso; lia|].
      destruct ((x - 192) * 64 + (y - 128) <? 0x800) eqn:C2; [|exfalso; lia]. f_equal; [|f_equal]; divs.
    + exists ((N_of_ascii a - 224) * 4096 + (N_of_ascii b - 128) * 64 + (N_of_ascii c - 128)). unfold scalar, utf8_bytes. cbn [map].
      set (x := N_of_ascii a) in *. set (y := N_of_ascii b) in *. set (z := N_of_ascii c) in *.
      assert (R : 224 <= x <= 239 /\ 128 <= y <= 191 /\ 128 <= z <= 191 /\ (x = 224 -> 160 <= y) /\ (x = 237 -> y <= 159)).
      { destruct (x =? 224) eqn:K1; [lia|]. destruct (x =? 237) eqn:K2; [lia|]. destruct (x =? 240) eqn:K3; [lia|]. destruct (x =? 244) eqn:K4; lia. }
      clear H. split; [lia|]. set (n := (x - 224) * 4096 + (y - 128) * 64 + (z - 128)).
      destruct (n <? 0x80) eqn:C1; [exfalso; lia|]. destruct (n <? 0x800) eqn:C2; [exfalso; lia|]. destruct (n <? 0x10000) eqn:C3; [|exfalso; lia].
      subst n. f_equal; [|f_equal; [|f_equal]]; divs.
    + exists ((N_of_ascii a - 240) * 262144 + (N_of_ascii b - 128) * 4096 + (N_of_ascii c - 128) * 64 + (N_of_ascii d - 128)). unfold scalar, utf8_bytes. cbn [map].
      set (x := N_of_ascii a) in *. set (y := N_of_ascii b) in *. set (z := N_of_ascii c) in *. set (w := N_of_ascii d) in *.
      assert (R : 240 <= x <= 244 /\ 128 <= y <= 191 /\ 128 <= z <= 191 /\ 128 <= w <= 191 /\ (x = 240 -> 144 <= y) /\ (x = 244 -> y <= 143)).
      { destruct (x =? 224) eqn:K1; [lia|]. destruct (x =? 237) eqn:K2; [lia|]. destruct (x =? 240) eqn:K3; [lia|]. destruct (x =? 244) eqn:K4; lia. }
      clear H. split; [lia|]. set (n := (x - 240) * 262144 + (y - 128) * 4096 + (z - 128) * 64 + (w - 128)).
      destruct (n <? 0x80) eqn:C1; [exfalso; lia|]. destruct (n <? 0x800) eqn:C2; [exfalso; lia|]. destruct (n <? 0x10000) eqn:C3; [exfalso; lia|].
      subst n. f_equal; [|f_equal; [|f_equal; [|f_equal]]]; divs.
Qed.

Lemma utf8_start_wf (s : str) : utf8_start s <-> wf_prefix s = true.
Proof.
  split.
  - intros (t & N & C). apply utf8_char_wf in C. destruct t as [|y t]; [contradiction|].
    destruct s as [|a [|b [|c [|d s]]]]; cbn [app] in C; cbn [wf_prefix wf_char] in *; try reflexivity.
    + destruct t as [|z [|w [|v t]]]; try discriminate; unfold in_range, is_ascii_byte in *; lia.
    + destruct t as [|z [|w t]]; try discriminate; unfold in_range in *; destruct (second_ok a b); lia.
    + destruct t as [|z t]; [exact (proj1 (andb_prop _ _ C))|discriminate].
    + destruct s as [|e s]; destruct t; discriminate.
  - intro H. destruct s as [|a [|b [|c [|d s]]]]; cbn [wf_prefix] in H; try discriminate.
    + exists ["0"%char]. split; [discriminate|]. apply utf8_char_wf. reflexivity.
    + assert (R : in_range 194 223 a = true \/ in_range 224 239 a = true \/ in_range 240 244 a = true) by (unfold in_range in *; lia).
      destruct R as [R|[R|R]].
      * exists ["128"%char]. split; [discriminate|]. apply utf8_char_wf. cbn [app wf_char]. now rewrite R.
      * pose (b := if code a =? 224 then "160"%char else "128"%char). exists [b; "128"%char]. split; [discriminate|].
        apply utf8_char_wf. cbn [app wf_char]. rewrite R. subst b. unfold second_ok. cbv zeta.
        destruct (code a =? 224) eqn:K; [reflexivity|]. destruct (code a =? 237); [reflexivity|]. unfold in_range in R.
        destruct (code a =? 240) eqn:K3; [lia|]. destruct (code a =? 244) eqn:K4; [lia|]. reflexivity.
      * pose (b := if code a =? 240 then "144"%char else "128"%char). exists [b; "128"%char; "128"%char]. split; [discriminate|].
        apply utf8_char_wf. cbn [app wf_char]. rewrite R. subst b. unfold second_ok. cbv zeta. unfold in_range in R.
        destruct (code a =? 224) eqn:K; [lia|]. destruct (code a =? 237) eqn:K2; [lia|].
        destruct (code a =? 240) eqn:K3; [reflexivity|]. destruct (code a =? 244) eqn:K4; reflexivity.
    + assert (R : in_range 224 239 a = true \/ in_range 240 244 a = true) by (unfold in_range in *; lia).
      apply andb_prop in H. destruct H as [_ H]. destruct R as [R|R].
      * exists ["128"%char]. split; [discriminate|]. apply utf8_char_wf. cbn [app wf_char]. now rewrite R, H.
      * exists ["128"%char; "128"%char]. split; [discriminate|]. apply utf8_char_wf. cbn [app wf_char]. now rewrite R, H.
    + exists ["128"%char]. split; [discriminate|]. apply utf8_char_wf. cbn [app wf_char]. now rewrite H.
Qed.

(** The first step of the decoder. *)
Lemma step_char (a : ascii) (r : str) (n : nat) : utf8_head a r = UChar n ->
  wf_char (firstn n (a :: r)) = true /\ (1 <= n <= List.length (a :: r))%nat.
Proof.
  unfold utf8_head. destruct (is_ascii_byte a) eqn:A1.
  { intro H. injection H as <-. cbn [firstn wf_char]. rewrite A1. cbn [List.length]. split; [reflexivity|lia]. }
  destruct (in_range 194 223 a) eqn:A2.
  { destruct r as [|b r]; [discriminate|]. destruct (is_cont b) eqn:B; [|discriminate]. intro H. injection H as <-.
    cbn [firstn wf_char List.length]. rewrite A2, B. split; [reflexivity|lia]. }
  destruct (in_range 224 239 a) eqn:A3.
  { destruct r as [|b r]; [discriminate|]. destruct (second_ok a b) eqn:B; [|discriminate].
    destruct r as [|c r]; [discriminate|]. destruct (is_cont c) eqn:C; [|discriminate]. intro H. injection H as <-.
    cbn [firstn wf_char List.length]. rewrite A3, B, C. split; [reflexivity|lia]. }
  destruct (in_range 240 244 a) eqn:A4; [|discriminate].
  destruct r as [|b r]; [discriminate|]. destruct (second_ok a b) eqn:B; [|discriminate].
  destruct r as [|c r]; [discriminate|]. destruct (is_cont c) eqn:C; [|discriminate].
  destruct r as [|d r]; [discriminate|]. destruct (is_cont d) eqn:D; [|discriminate]. intro H. injection H as <-.
  cbn [firstn wf_char List.length]. rewrite A4, B, C, D. split; [reflexivity|lia].
Qed.
Lemma wf_char_head (a : ascii) (c : str) : wf_char (a :: c) = true -> forall s, utf8_head a (c ++ s) = UChar (List.length (a :: c)).
Proof.
  intros H s. destruct c as [|b [|d [|e [|f c]]]]; cbn [wf_char] in H; cbn [app List.length]; unfold utf8_head; try discriminate.
  - now rewrite H.
  - assert (is_ascii_byte a = false) as -> by (unfold in_range, is_ascii_byte in *; lia).
    apply andb_prop in H. destruct H as [-> ->]. reflexivity.
  - assert (is_ascii_byte a = false) as -> by (unfold in_range, is_ascii_byte in *; lia).
    assert (in_range 194 223 a = false) as -> by (unfold in_range in *; lia).
    apply andb_prop in H. destruct H as [H ->]. apply andb_prop in H. destruct H as [-> ->]. reflexivity.
  - assert (is_ascii_byte a = false) as -> by (unfold in_range, is_ascii_byte in *; lia).
    assert (in_range 194 223 a = false) as -> by (unfold in_range in *; lia).
    assert (in_range 224 239 a = false) as -> by (unfold in_range in *; lia).
    apply andb_prop in H. destruct H as [H ->]. apply andb_prop in H. destruct H as [H ->]. apply andb_prop in H. destruct H as [-> ->]. reflexivity.
Qed.
Lemma wf_char_nil : wf_char [] = false.
Proof. reflexivity. Qed.
Lemma step_bad (a : ascii) (r : str) (n : nat) : utf8_head a r = UBad n ->
  let b := firstn n (a :: r) in let s := skipn n (a :: r) in
  (1 <= n <= List.length (a :: r))%nat /\ (wf_prefix b = true \/ List.length b = 1%nat)
  /\ (forall c s', a :: r = c ++ s' -> wf_char c = false)
  /\ (forall x s', s = x :: s' -> wf_prefix (b ++ [x]) = false).
Proof.
  intro H. cbv zeta.
  assert (NC : forall c s', a :: r = c ++ s' -> wf_char c = false).
  { intros c s' E. destruct (wf_char c) eqn:W; [|reflexivity]. destruct c as [|x c]; [discriminate|]. injection E as <- ->.
    rewrite (wf_char_head a c W s') in H. discriminate. }
  revert H. unfold utf8_head. destruct (is_ascii_byte a) eqn:A1; [discriminate|].
  destruct (in_range 194 223 a) eqn:A2.
  { assert (E : forall x, wf_prefix [a; x] = false) by (intro x; cbn; unfold in_range in *; lia).
    destruct r as [|b r]; [|destruct (is_cont b) eqn:B; [discriminate|]]; intro H; injection H as <-;
      cbn [firstn skipn List.length]; (split; [lia|]); (split; [now right|]); (split; [exact NC|]); intros x s' Ex; [discriminate|].
    injection Ex as <- <-. apply E. }
  destruct (in_range 224 239 a) eqn:A3.
  { assert (E : forall b x, wf_prefix [a; b; x] = false) by (intros b x; cbn; unfold in_range in *; lia).
    destruct r as [|b r]; [|destruct (second_ok a b) eqn:B].
    - intro H; injection H as <-. cbn [firstn skipn List.length]; (split; [lia|]); (split; [now right|]); (split; [exact NC|]); intros x s' Ex; discriminate.
    - assert (P : wf_prefix [a; b] = true) by (cbn; rewrite B; unfold in_range in *; lia).
      destruct r as [|c r]; [|destruct (is_cont c) eqn:C; [discriminate|]]; intro H; injection H as <-;
        cbn [firstn skipn List.length]; (split; [lia|]); (split; [now left|]); (split; [exact NC|]); intros x s' Ex; [discriminate|].
      injection Ex as <- <-. apply E.
    - intro H; injection H as <-. cbn [firstn skipn List.length]; (split; [lia|]); (split; [now right|]); (split; [exact NC|]); intros x s' Ex.
      injection Ex as <- <-. cbn. rewrite B. apply andb_false_r. }
  destruct (in_range 240 244 a) eqn:A4.
  { assert (E : forall b c x, wf_prefix [a; b; c; x] = false) by reflexivity.
    destruct r as [|b r]; [|destruct (second_ok a b) eqn:B].
    - intro H; injection H as <-. cbn [firstn skipn List.length]; (split; [lia|]); (split; [now right|]); (split; [exact NC|]); intros x s' Ex; discriminate.
    - assert (P : wf_prefix [a; b] = true) by (cbn; rewrite B; unfold in_range in *; lia).
      destruct r as [|c r]; [|destruct (is_cont c) eqn:C].
      + intro H; injection H as <-. cbn [firstn skipn List.length]; (split; [lia|]); (split; [now left|]); (split; [exact NC|]); intros x s' Ex; discriminate.
      + assert (P3 : wf_prefix [a; b; c] = true) by (cbn; now rewrite A4, B, C).
        destruct r as [|d r]; [|destruct (is_cont d) eqn:D; [discriminate|]]; intro H; injection H as <-;
          cbn [firstn skipn List.length]; (split; [lia|]); (split; [now left|]); (split; [exact NC|]); intros x s' Ex; [discriminate|].
        injection Ex as <- <-. apply E.
      + intro H; injection H as <-. cbn [firstn skipn List.length]; (split; [lia|]); (split; [now left|]); (split; [exact NC|]); intros x s' Ex.
        injection Ex as <- <-. cbn. rewrite C. apply andb_false_r.
    - intro H; injection H as <-. cbn [firstn skipn List.length]; (split; [lia|]); (split; [now right|]); (split; [exact NC|]); intros x s' Ex.
      injection Ex as <- <-. cbn. rewrite B. apply andb_false_r. }
  intro H; injection H as <-. cbn [firstn skipn List.length]; (split; [lia|]); (split; [now right|]); (split; [exact NC|]); intros x s' Ex.
  cbn [app wf_prefix]. assert (in_range 224 244 a = false) as -> by (unfold in_range in *; lia). reflexivity.
Qed.

Lemma lossy_fuel_spec (f : nat) : forall s : str, (List.length s <= f)%nat -> lossy_text s (lossy_fuel f s).
Proof.
  induction f as [|f IH]; intros s L.
  - destruct s; [constructor|cbn in L; lia].
  - destruct s as [|a r]; [constructor|]. cbn [lossy_fuel]. destruct (utf8_head a r) as [n|n] eqn:H.
    + apply step_char in H. destruct H as [W [L1 L2]].
      rewrite <- (firstn_skipn n (a :: r)) at 1. constructor; [now apply utf8_char_wf|]. apply IH.
      rewrite skipn_length. lia.
    + apply step_bad in H. cbv zeta in H. destruct H as ([L1 L2] & P & NC & Mx).
      rewrite <- (firstn_skipn n (a :: r)) at 1. change replacement with u_fffd.
      assert (Lb : List.length (firstn n (a :: r)) = n) by (rewrite firstn_length; lia).
      constructor.
      * intro E. rewrite E in Lb. cbn in Lb. lia.
      * destruct P as [P|P]; [left; now apply utf8_start_wf|now right].
      * intros c s' E C. rewrite firstn_skipn in E. apply utf8_char_wf in C. rewrite (NC c s' E) in C. discriminate.
      * intros x s' E St. apply utf8_start_wf in St. rewrite (Mx x s' E) in St. discriminate.
      * apply IH. rewrite skipn_length. lia.
Qed.
Lemma app_prefix {A} (a b c d : list A) : a ++ b = c ++ d -> (List.length a <= List.length c)%nat -> exists e, c = a ++ e /\ b = e ++ d.
Proof.
  revert c. induction a as [|x a IH]; intros c E L; [exists c; auto|].
  destruct c as [|y c]; [cbn in L; lia|]. injection E as -> E. destruct (IH c E) as (e & -> & ->); [cbn in L; lia|]. exists e. auto.
Qed.
Lemma utf8_char_ne (c : str) : utf8_char c -> c <> [].
Proof. intros H ->. apply utf8_char_wf in H. discriminate. Qed.
Lemma utf8_char_len (c s c' s' : str) : utf8_char c -> utf8_char c' -> c ++ s = c' ++ s' -> c = c' /\ s = s'.
Proof.
  intros H1 H2 E. apply utf8_char_wf in H1. apply utf8_char_wf in H2.
  destruct c as [|a c]; [discriminate|]. destruct c' as [|a' c']; [discriminate|]. injection E as <- E.
  pose proof (wf_char_head a c H1 s) as X. rewrite E, (wf_char_head a c' H2 s') in X. injection X as X.
  assert (L : List.length c = List.length c') by congruence.
  destruct (app_prefix c s c' s' E) as (e & -> & ->); [lia|]. rewrite app_length in L. destruct e; [|cbn in L; lia]. rewrite app_nil_r. auto.
Qed.
Lemma utf8_start_prefix (b e : str) : utf8_start (b ++ e) -> utf8_start b \/ e = [].
Proof.
  intros (t & N & C). destruct e as [|x e]; [now right|]. left. exists ((x :: e) ++ t). split; [discriminate|]. now rewrite app_assoc.
Qed.
Lemma bad_unique (b s b' s' : str) :
  b <> [] -> b' <> [] -> (utf8_start b' \/ List.length b' = 1%nat) ->
  (forall x r, s = x :: r -> ~ utf8_start (b ++ [x])) ->
  b ++ s = b' ++ s' -> (List.length b <= List.length b')%nat -> b = b' /\ s = s'.
Proof.
  intros N N' P M E L. destruct (app_prefix b s b' s' E L) as (e & -> & ->).
  destruct e as [|x e]; [rewrite app_nil_r; auto|]. exfalso. apply (M x (e ++ s') eq_refl).
  destruct P as [P|P].
  - replace (b ++ x :: e) with ((b ++ [x]) ++ e) in P by now rewrite <- app_assoc.
    destruct e as [|y e]; [now rewrite app_nil_r in P|].
    apply utf8_start_prefix in P. destruct P as [P|P]; [exact P|discriminate].
  - rewrite app_length in P. cbn in P. destruct b; [contradiction|cbn in P; lia].
Qed.
Lemma lossy_fun (s t : str) : lossy_text s t -> forall t', lossy_text s t' -> t = t'.
Proof.
  induction 1 as [|c s t C _ IH|b s t N P NC M _ IH]; intros t' H'.
  - inversion H' as [|c s t'' C T E|b s t'' N P NC M T E]; subst; [reflexivity| |].
    + apply utf8_char_ne in C. destruct c; [contradiction|discriminate].
    + destruct b; [now elim N|discriminate].
  - inversion H' as [E|c' s' t'' C' T E|b s' t'' N P NC M T E].
    + apply utf8_char_ne in C. destruct c; [contradiction|discriminate].
    + apply utf8_char_len in E; [|assumption|assumption]. destruct E as [-> ->]. f_equal. now apply IH.
    + exfalso. exact (NC c s E C).
  - inversion H' as [E|c' s' t'' C' T E|b' s' t'' N' P' NC' M' T E].
    + destruct b; [contradiction|discriminate].
    + exfalso. exact (NC c' s' (eq_sym E) C').
    + assert (b = b' /\ s = s') as [-> ->].
      { destruct (Nat.le_ge_cases (List.length b) (List.length b')) as [L|L].
        - now apply (bad_unique b s b' s').
        - destruct (bad_unique b' s' b s N' N P M' E L) as [-> ->]. auto. }
      f_equal. now apply IH.
Qed.
Lemma lossy_iff (s t : str) : lossy_text s t <-> t = from_utf8_lossy s.
Proof.
  split.
  - intro H. eapply lossy_fun; [exact H|]. apply lossy_fuel_spec. lia.
  - intros ->. apply lossy_fuel_spec. lia.
Qed.
Lemma lossy_chars (l : list str) : Forall utf8_char l -> lossy_text (List.concat l) (List.concat l).
Proof. induction 1; cbn [List.concat]; constructor; assumption. Qed.
Lemma lossy_id (s : str) : utf8_text s -> lossy_text s s.
Proof. intros (l & F & ->). now apply lossy_chars. Qed.
(** The result is always text; text is unchanged, anything else is not. *)
Lemma lossy_is_text (s t : str) : lossy_text s t -> utf8_text t.
Proof.
  induction 1 as [|c s t C _ IH|b s t N P NC M _ IH].
  - exists []. split; [constructor|reflexivity].
  - destruct IH as (l & F & ->). exists (c :: l). split; [now constructor|reflexivity].
  - destruct IH as (l & F & ->). exists (u_fffd :: l). split; [|reflexivity]. constructor; [|exact F]. now apply utf8_char_wf.
Qed.
Lemma lossy_text_iff (s : str) : lossy_text s s <-> utf8_text s.
Proof. split; [apply lossy_is_text|apply lossy_id]. Qed.

(** ** Form decoding *)
Lemma hex_digit_iff (c : ascii) (v : N) : hex_digit c v <-> hex_val c = Some v.
Proof.
  unfold hex_digit, hex_val, is_digit, in_range. fold (code c).
  destruct ((48 <=? code c) && (code c <=? 57)) eqn:A.
  { split; [|intro H; injection H as <-; lia]. intros [[H ->]|[[H ->]|[H ->]]]; [reflexivity|lia|lia]. }
  destruct ((97 <=? code c) && (code c <=? 102)) eqn:B.
  { split; [|intro H; injection H as <-; lia]. intros [[H ->]|[[H ->]|[H ->]]]; [lia|lia|reflexivity]. }
  destruct ((65 <=? code c) && (code c <=? 70)) eqn:C.
  { split; [|intro H; injection H as <-; lia]. intros [[H ->]|[[H ->]|[H ->]]]; [lia|reflexivity|lia]. }
  split; [lia|discriminate].
Qed.
Lemma hex_val_lt (c : ascii) (v : N) : hex_val c = Some v -> v < 16.
Proof. intro H. apply hex_digit_iff in H. unfold hex_digit in H. lia. Qed.
Definition plus (c : ascii) : ascii := if Ascii.eqb c "+" then " "%char else c.
Lemma hex_plus (c : ascii) : hex_val (plus c) = hex_val c.
Proof. unfold plus. destruct (Ascii.eqb c "+") eqn:E; [|reflexivity]. apply Ascii.eqb_eq in E. subst c. reflexivity. Qed.
Lemma pd_other (c : ascii) (s : str) : Ascii.eqb c "%" = false -> percent_decode (c :: s) = c :: percent_decode s.
Proof. intro H. cbn [percent_decode]. now rewrite H. Qed.
Lemma pd_hex (h l : ascii) (s : str) (x y : N) : hex_val h = Some x -> hex_val l = Some y ->
  percent_decode ("%"%char :: h :: l :: s) = ascii_of_N (x * 16 + y) :: percent_decode s.
Proof. intros H1 H2. cbn [percent_decode]. rewrite Ascii.eqb_refl. now rewrite H1, H2. Qed.
Lemma pd_nohex (s : str) : (forall h l s' x y, s = h :: l :: s' -> hex_val h = Some x -> hex_val l = Some y -> False) ->
  percent_decode ("%"%char :: s) = "%"%char :: percent_decode s.
Proof.
  intro H. destruct s as [|h [|l s]]; [reflexivity|reflexivity|].
  cbn [percent_decode]. rewrite Ascii.eqb_refl.
  destruct (hex_val h) as [x|] eqn:E1; [|reflexivity]. destruct (hex_val l) as [y|] eqn:E2; [|reflexivity].
  exfalso. exact (H h l s x y eq_refl E1 E2).
Qed.
Lemma unescaped_decode (s d : str) : unescaped s d -> d = percent_decode (map plus s).
Proof.
  induction 1 as [|s d _ IH|h l x y c s d Hh Hl Hc _ IH|c s d N N' _ IH].
  - reflexivity.
  - cbn [map]. change (plus "+") with " "%char. rewrite pd_other by reflexivity. now rewrite <- IH.
  - cbn [map]. change (plus "%") with "%"%char. apply hex_digit_iff in Hh. apply hex_digit_iff in Hl.
    rewrite (pd_hex _ _ _ x y) by now rewrite hex_plus. rewrite <- IH. f_equal. apply code_inj.
    pose proof (hex_val_lt _ _ Hh). pose proof (hex_val_lt _ _ Hl). rewrite code_of by lia. unfold code. lia.
  - cbn [map]. assert (E : plus c = c).
    { unfold plus. destruct (Ascii.eqb c "+") eqn:E; [|reflexivity]. apply Ascii.eqb_eq in E. contradiction. }
    rewrite E. destruct (Ascii.eqb c "%") eqn:P.
    + apply Ascii.eqb_eq in P. subst c. rewrite pd_nohex; [now rewrite <- IH|].
      intros h l s' x y Es H1 H2. destruct s as [|h' [|l' s'']]; try discriminate. cbn [map] in Es. injection Es as <- <- <-.
      rewrite hex_plus in H1, H2. apply N'. split; [reflexivity|]. exists h', l', s'', x, y. split; [reflexivity|].
      split; now apply hex_digit_iff.
    + rewrite pd_other by exact P. now rewrite <- IH.
Qed.
Lemma unescaped_exists (n : nat) : forall s : str, (List.length s <= n)%nat -> exists d, unescaped s d.
Proof.
  induction n as [|n IH]; intros s L.
  - destruct s; [|cbn in L; lia]. exists []. constructor.
  - destruct s as [|c s]; [exists []; constructor|].
    destruct (ascii_dec c "+"%char) as [->|N].
    { destruct (IH s) as [d D]; [cbn in L; lia|]. exists (" "%char :: d). now constructor. }
    assert (X : (c = "%"%char /\ exists h l s' x y, s = h :: l :: s' /\ hex_digit h x /\ hex_digit l y)
      \/ ~ (c = "%"%char /\ exists h l s' x y, s = h :: l :: s' /\ hex_digit h x /\ hex_digit l y)).
    { destruct (ascii_dec c "%"%char) as [->|N']; [|right; intros [E _]; contradiction].
      destruct s as [|h [|l s']]; [right; intros (_ & h1 & l1 & s1 & x1 & y1 & E & _); discriminate..|].
      destruct (hex_val h) as [x|] eqn:E1.
      2:{ right. intros (_ & h' & l' & s'' & x & y & E & H1 & _). injection E as <- <- <-. apply hex_digit_iff in H1. congruence. }
      destruct (hex_val l) as [y|] eqn:E2.
      2:{ right. intros (_ & h' & l' & s'' & x' & y & E & _ & H2). injection E as <- <- <-. apply hex_digit_iff in H2. congruence. }
      left. split; [reflexivity|]. exists h, l, s', x, y. split; [reflexivity|]. split; now apply hex_digit_iff. }
    destruct X as [(-> & h & l & s' & x & y & -> & H1 & H2)|X].
    + destruct (IH s') as [d D]; [cbn in L; lia|]. exists (ascii_of_N (16 * x + y) :: d). econstructor; try eassumption.
      apply hex_digit_iff in H1. apply hex_digit_iff in H2. pose proof (hex_val_lt _ _ H1). pose proof (hex_val_lt _ _ H2).
      change (code (ascii_of_N (16 * x + y)) = 16 * x + y). apply code_of. lia.
    + destruct (IH s) as [d D]; [cbn in L; lia|]. exists (c :: d). now constructor.
Qed.
Lemma unescaped_iff (s d : str) : unescaped s d <-> d = percent_decode (map plus s).
Proof.
  split; [apply unescaped_decode|]. intros ->. destruct (unescaped_exists (List.length s) s) as [d D]; [lia|].
  now rewrite <- (unescaped_decode s d D).
Qed.
Lemma form_value_iff (s v : str) : form_value s v <-> v = form_decode s.
Proof.
  unfold form_value, form_decode. fold plus. split.
  - intros (d & D & V). apply unescaped_iff in D. subst d. now apply lossy_iff in V.
  - intros ->. exists (percent_decode (map plus s)). split; [now apply unescaped_iff|now apply lossy_iff].
Qed.

(** ** Queries *)
Lemma query_piece_iff (p : str) (kv : str * str) : query_piece p kv <-> kv = form_pair p.
Proof.
  unfold form_pair. split.
  - intros [k v k' v' N K V|k k' N K]; apply form_value_iff in K; subst k'.
    + apply form_value_iff in V. subst v'. assert (E : split_once "=" (k ++ "="%char :: v) = Some (k, v)) by now apply split_once_spec.
      now rewrite E.
    + apply split_once_none in N. now rewrite N.
  - intros ->. destruct (split_once "=" p) as [[k v]|] eqn:E.
    + apply split_once_spec in E. destruct E as [-> N]. constructor; [exact N|now apply form_value_iff|now apply form_value_iff].
    + apply split_once_none in E. constructor; [exact E|now apply form_value_iff].
Qed.
Lemma ampersands_join (l : list str) : ampersands l = join ["&"%char] l.
Proof. induction l as [|x [|y l] IH]; [reflexivity..|]. rewrite join_cons, <- IH. reflexivity. Qed.
Lemma not_empty_negb (s : str) : not_empty s = negb (match s with [] => true | _ => false end).
Proof. now destruct s. Qed.
Lemma Forall2_map_iff {A B} (f : A -> B) (R : A -> B -> Prop) (l : list A) (m : list B) :
  (forall a b, R a b <-> b = f a) -> (Forall2 R l m <-> m = map f l).
Proof.
  intro H. split.
  - induction 1 as [|a b l m Hab _ IH]; [reflexivity|]. cbn. f_equal; [now apply H|exact IH].
  - intros ->. induction l; constructor; [now apply H|assumption].
Qed.
Lemma query_params_iff (q : str) (ps : list (str * str)) : query_params q ps <-> ps = form_parse q.
Proof.
  unfold query_params, form_parse.
  assert (Ff : forall l, filter not_empty l = filter (fun p => negb (match p with [] => true | _ => false end)) l).
  { intro l. apply filter_ext. exact not_empty_negb. }
  split.
  - intros (pieces & -> & N & F). apply (Forall2_map_iff form_pair _ _ _ query_piece_iff) in F. subst ps. f_equal.
    rewrite Ff. rewrite ampersands_join. destruct pieces as [|p l]; [reflexivity|].
    rewrite split_join; [reflexivity|discriminate|]. intros x Hx. rewrite Forall_forall in N. now apply N.
  - intros ->. exists (split "&" q). split; [now rewrite ampersands_join, join_split|].
    split; [apply Forall_forall; intros x Hx; eapply split_pieces; exact Hx|].
    apply (Forall2_map_iff form_pair _ _ _ query_piece_iff). now rewrite Ff.
Qed.
Lemma query_params_unique (q : str) : exists ps, query_params q ps /\ forall ps', query_params q ps' -> ps' = ps.
Proof.
  exists (form_parse q). split; [now apply query_params_iff|]. intros ps' H. now apply query_params_iff in H.
Qed.

(** Encoded parameters. *)
Lemma form_byte_unescaped (c : ascii) (s d : str) : unescaped s d -> unescaped (form_byte c ++ s) (c :: d).
Proof.
  intro H. unfold form_byte. cbv zeta. fold (code c). destruct (Ascii.eqb c " ") eqn:E1.
  { apply Ascii.eqb_eq in E1. subst c. now constructor. }
  match goal with |- unescaped ((if ?b then _ else _) ++ _) _ => destruct b eqn:E2 end.
  - assert (X : forallb (fun c => implb (((48 <=? code c) && (code c <=? 57) || (65 <=? code c) && (code c <=? 90) || (97 <=? code c) && (code c <=? 122))
       || existsb (Ascii.eqb c) $"*-._") (negb (Ascii.eqb c "+") && negb (Ascii.eqb c "%"))) all_bytes = true) by (vm_compute; reflexivity).
    apply byte_all with (c := c) in X. cbv beta in X. rewrite E2 in X. cbn [implb] in X.
    apply andb_prop in X. destruct X as [X1 X2]. apply negb_true_iff in X1. apply negb_true_iff in X2.
    apply Ascii.eqb_neq in X1. apply Ascii.eqb_neq in X2. cbn [app]. constructor; [exact X1|tauto|exact H].
  - cbn [app]. pose proof (code_lt c) as L.
    assert (Hx : forall v, v < 16 -> hex_digit (hex_upper v) v).
    { intros v Hv. unfold hex_digit, hex_upper. destruct (v <? 10) eqn:K.
      - fold (code (ascii_of_N (48 + v))). rewrite code_of by lia. lia.
      - fold (code (ascii_of_N (55 + v))). rewrite code_of by lia. lia. }
    apply (un_hex _ _ (code c / 16) (code c mod 16)); [apply Hx; divs|apply Hx; divs| |exact H].
    change (N_of_ascii c) with (code c). divs.
Qed.
Lemma form_text_unescaped (s : str) : unescaped (form_text s) s.
Proof. induction s as [|c s IH]; [constructor|]. unfold form_text. cbn [map List.concat]. now apply form_byte_unescaped. Qed.
Lemma form_text_clean (s : str) (x : ascii) : In x (form_text s) -> x <> "&"%char /\ x <> "="%char.
Proof.
  unfold form_text. intro H. apply in_concat in H. destruct H as (b & Hb & Hx). apply in_map_iff in Hb. destruct Hb as (c & <- & _).
  assert (X : forallb (fun c => forallb (fun x => negb (Ascii.eqb x "&") && negb (Ascii.eqb x "=")) (form_byte c)) all_bytes = true) by (vm_compute; reflexivity).
  apply byte_all with (c := c) in X. cbv beta in X. apply (forallb_In _ _ _ X) in Hx. apply andb_prop in Hx. destruct Hx as [H1 H2].
  apply negb_true_iff in H1. apply negb_true_iff in H2. split; now apply Ascii.eqb_neq.
Qed.
Lemma form_query_params (ps : list (str * str)) :
  Forall (fun p => utf8_text (fst p) /\ utf8_text (snd p)) ps -> query_params (form_query ps) ps.
Proof.
  intro H. unfold form_query. eexists. split; [reflexivity|]. split.
  - apply Forall_forall. intros p Hp. apply in_map_iff in Hp. destruct Hp as ((k, v) & <- & _). cbn [fst snd].
    intro I. apply in_app_or in I. destruct I as [I|[I|I]]; [|discriminate|]; now apply form_text_clean in I.
  - induction H as [|[k v] ps [Hk Hv] _ IH]; [constructor|]. cbn [map fst snd filter].
    assert (E : not_empty (form_text k ++ ["="%char] ++ form_text v) = true) by (destruct (form_text k); reflexivity).
    rewrite E. constructor; [|exact IH]. constructor.
    + intro I. now apply form_text_clean in I.
    + exists k. split; [apply form_text_unescaped|now apply lossy_id].
    + exists v. split; [apply form_text_unescaped|now apply lossy_id].
Qed.

(** ** The component *)
Lemma filter_names (n : str) (ps : list (str * str)) :
  map snd (filter (fun p => str_eqb n (fst p)) ps) = values_named n ps.
Proof.
  unfold values_named. f_equal. apply filter_ext. intros [k v]. cbn [fst]. destruct (list_eq_dec ascii_dec k n) as [->|N].
  - apply str_eqb_refl.
  - apply str_eqb_neq. congruence.
Qed.
Lemma derive_params_of (n : str) (p : params) (u : url) (ps : list (str * str)) :
  query_params (url_query u) ps -> imap_get p $"name" = Some (BString n) ->
  derive_query_params (Derived (Item (BString $"@query-params") p)) u = Some (lines (values_named n ps)).
Proof.
  intros Q E. apply query_params_iff in Q. subst ps. unfold derive_query_params, dc_param. cbn [dc_item it_params]. rewrite E. cbn [as_str].
  rewrite lines_join. do 2 f_equal. unfold query_pairs. apply filter_names.
Qed.
Lemma mock_query_params (r : mock) (n : str) (ps : list (str * str)) : query_params (url_query (mr_url r)) ps ->
  mr_derive r (query_params_of n) = Done (Some (lines (values_named n ps))).
Proof.
  intro Q. cbn [mr_derive query_params_of]. unfold dc_derive, dc_name. cbn [dc_item it_bare as_str unwrap obind].
  change (Done (derive_query_params (Derived (Item (BString $"@query-params") [($"name", BString n)])) (mr_url r))
          = Done (Some (lines (values_named n ps)))).
  now rewrite (derive_params_of n _ _ ps).
Qed.
Lemma rq_query_params (r : rq) (n : str) (ps : list (str * str)) : query_params (url_query (rq_url r)) ps ->
  rq_derive r (query_params_of n) = Done (Some (lines (values_named n ps))).
Proof.
  intro Q. cbn [rq_derive query_params_of]. unfold dc_derive, dc_name. cbn [dc_item it_bare as_str unwrap obind].
  change (Done (derive_query_params (Derived (Item (BString $"@query-params") [($"name", BString n)])) (rq_url r))
          = Done (Some (lines (values_named n ps)))).
  now rewrite (derive_params_of n _ _ ps).
Qed.
Lemma lossy_summary (s t : str) : lossy_text s t -> utf8_text t /\ (utf8_text s -> t = s).
Proof.
  intro H. split.
  - now apply (lossy_is_text s).
  - intro U. apply lossy_text_iff in U. apply lossy_iff in U. apply lossy_iff in H. congruence.
Qed.
