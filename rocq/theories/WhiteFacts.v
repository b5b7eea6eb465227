(** [str::trim] removes exactly the white space at both ends. *)
From Verif Require Export StrFacts SpecTrim.

Lemma code_inv (a : ascii) (n : N) : N_of_ascii a = n -> a = ascii_of_N n.
Proof. intros <-. symmetry. apply ascii_N_embedding. Qed.
Lemma white_iff (w : str) : white w <->
  (exists a, w = [a] /\ ws1 a = true) \/ (exists a b, w = [a; b] /\ ws2 a b = true) \/ (exists a b c, w = [a; b; c] /\ ws3 a b c = true).
Proof.
  split.
  - intros (n & I & E).
    assert (X : existsb (fun n => match utf8_bytes n with [_] | [_; _] | [_; _; _] => false | _ => true end) white_points = false) by reflexivity.
    unfold white_points in I. cbn [In] in I.
    repeat (destruct I as [<-|I];
      [match type of E with map _ _ = ?l => let l' := eval vm_compute in l in change l with l' in E end;
       repeat (destruct w as [|? w]; try discriminate E); cbn [map] in E; injection E as; repeat match goal with H : N_of_ascii _ = _ |- _ => apply code_inv in H; subst end;
       first [left; eexists; split; reflexivity|right; left; eexists _, _; split; reflexivity|right; right; eexists _, _, _; split; reflexivity]|]).
    destruct I.
  - intros [(a & -> & H)|[(a & b & -> & H)|(a & b & c & -> & H)]].
    + exists (code a). unfold ws1, in_range in H.
      assert (C : code a = 9%N \/ code a = 10%N \/ code a = 11%N \/ code a = 12%N \/ code a = 13%N \/ code a = 32%N) by lia.
      destruct C as [C|[C|[C|[C|[C|C]]]]]; rewrite C; (split; [vm_compute; tauto|]); cbn [map]; unfold code in C; rewrite C; reflexivity.
    + unfold ws2 in H. assert (A : code a = 194%N) by lia. assert (B : code b = 133%N \/ code b = 160%N) by lia. unfold code in A, B.
      destruct B as [B|B]; [exists 0x85%N|exists 0xA0%N]; (split; [vm_compute; tauto|]); cbn [map]; rewrite A, B; reflexivity.
    + unfold ws3, in_range in H.
      assert (C : code a = 225%N /\ code b = 154%N /\ code c = 128%N
        \/ code a = 226%N /\ code b = 128%N /\ (128 <= code c <= 138 \/ code c = 168 \/ code c = 169 \/ code c = 175)%N
        \/ code a = 226%N /\ code b = 129%N /\ code c = 159%N \/ code a = 227%N /\ code b = 128%N /\ code c = 128%N) by lia.
      unfold code in C.
      destruct C as [(A & B & C)|[(A & B & C)|[(A & B & C)|(A & B & C)]]].
      * exists 0x1680%N. split; [vm_compute; tauto|]. cbn [map]. rewrite A, B, C. reflexivity.
      * destruct C as [C|[C|[C|C]]].
        -- exists (0x2000 + (N_of_ascii c - 128))%N. cbn [map]. rewrite A, B.
           assert (D : exists k, (N_of_ascii c = 128 + k)%N /\ (k <= 10)%N) by (exists (N_of_ascii c - 128)%N; lia).
           destruct D as (k & D & Dk). rewrite D. replace (128 + k - 128)%N with k by lia.
           assert (K : k = 0%N \/ k = 1%N \/ k = 2%N \/ k = 3%N \/ k = 4%N \/ k = 5%N \/ k = 6%N \/ k = 7%N \/ k = 8%N \/ k = 9%N \/ k = 10%N) by lia.
           repeat (destruct K as [->|K]; [split; [vm_compute; tauto|reflexivity]|]). subst k. split; [vm_compute; tauto|reflexivity].
        -- exists 0x2028%N. split; [vm_compute; tauto|]. cbn [map]. rewrite A, B, C. reflexivity.
        -- exists 0x2029%N. split; [vm_compute; tauto|]. cbn [map]. rewrite A, B, C. reflexivity.
        -- exists 0x202F%N. split; [vm_compute; tauto|]. cbn [map]. rewrite A, B, C. reflexivity.
      * exists 0x205F%N. split; [vm_compute; tauto|]. cbn [map]. rewrite A, B, C. reflexivity.
      * exists 0x3000%N. split; [vm_compute; tauto|]. cbn [map]. rewrite A, B, C. reflexivity.
Qed.

(** The first byte of white space does not continue a character. *)
Lemma ws1_lead (a : ascii) : ws1 a = true -> (code a < 128)%N.
Proof. unfold ws1, in_range. lia. Qed.
Lemma ws2_ws1 (a b : ascii) : ws2 a b = true -> ws1 a = false /\ ws1 b = false.
Proof. unfold ws2, ws1, in_range. lia. Qed.
Lemma ws3_ws (a b c : ascii) : ws3 a b c = true -> ws1 a = false /\ ws1 c = false /\ ws2 a b = false /\ ws2 b c = false.
Proof. unfold ws3, ws2, ws1, in_range. lia. Qed.
Definition lead (a : ascii) : Prop := (code a < 128 \/ 192 <= code a)%N.
Lemma white_lead (w : str) : white w -> exists a x, w = a :: x /\ lead a /\ Forall (fun b => (128 <= code b < 192)%N) x.
Proof.
  intro H. apply white_iff in H. destruct H as [(a & -> & H)|[(a & b & -> & H)|(a & b & c & -> & H)]]; eexists _, _; (split; [reflexivity|]); unfold lead.
  - split; [left; now apply ws1_lead|constructor].
  - unfold ws2 in H. split; [lia|]. repeat constructor; lia.
  - unfold ws3, in_range in H. split; [lia|]. repeat constructor; lia.
Qed.

Lemma trim_start_white (w s : str) : white w -> trim_start (w ++ s) = trim_start s.
Proof.
  intro H. apply white_iff in H. destruct H as [(a & -> & H)|[(a & b & -> & H)|(a & b & c & -> & H)]]; cbn [app trim_start].
  - now rewrite H.
  - destruct (ws2_ws1 _ _ H) as [-> _]. now rewrite H.
  - destruct (ws3_ws _ _ _ H) as (-> & _ & -> & _). now rewrite H.
Qed.
Lemma trim_start_rev_white (w s : str) : white w -> trim_start_rev (rev w ++ s) = trim_start_rev s.
Proof.
  intro H. apply white_iff in H. destruct H as [(a & -> & H)|[(a & b & -> & H)|(a & b & c & -> & H)]]; cbn [rev app trim_start_rev].
  - now rewrite H.
  - destruct (ws2_ws1 _ _ H) as [_ ->]. now rewrite H.
  - destruct (ws3_ws _ _ _ H) as (_ & -> & _ & ->). now rewrite H.
Qed.
Lemma trim_start_id (t : str) : (forall w x, white w -> t <> w ++ x) -> trim_start t = t.
Proof.
  intro N. destruct t as [|a t]; [reflexivity|]. cbn [trim_start].
  destruct (ws1 a) eqn:W1. { exfalso. apply (N [a] t); [apply white_iff; eauto|reflexivity]. }
  destruct t as [|b t]; [reflexivity|].
  destruct (ws2 a b) eqn:W2. { exfalso. apply (N [a; b] t); [apply white_iff; right; left; eauto|reflexivity]. }
  destruct t as [|c t]; [reflexivity|].
  destruct (ws3 a b c) eqn:W3; [|reflexivity]. exfalso. apply (N [a; b; c] t); [apply white_iff; right; right; exists a, b, c; auto|reflexivity].
Qed.
Lemma trim_start_rev_id (t : str) : (forall w x, white w -> t <> x ++ w) -> trim_start_rev (rev t) = rev t.
Proof.
  intro N. assert (N' : forall w x, white w -> rev t <> rev w ++ x).
  { intros w x Hw E. apply (N w (rev x) Hw). rewrite <- (rev_involutive t), E, rev_app_distr, rev_involutive. reflexivity. }
  clear N. destruct (rev t) as [|c u]; [reflexivity|]. cbn [trim_start_rev].
  destruct (ws1 c) eqn:W1. { exfalso. apply (N' [c] u); [apply white_iff; eauto|reflexivity]. }
  destruct u as [|b u]; [reflexivity|].
  destruct (ws2 b c) eqn:W2. { exfalso. apply (N' [b; c] u); [apply white_iff; right; left; eauto|reflexivity]. }
  destruct u as [|a u]; [reflexivity|].
  destruct (ws3 a b c) eqn:W3; [|reflexivity]. exfalso. apply (N' [a; b; c] u); [apply white_iff; right; right; exists a, b, c; auto|reflexivity].
Qed.
Lemma white_text_app (a b : str) : white_text a -> white_text b -> white_text (a ++ b).
Proof. intros (l & H & ->) (m & K & ->). exists (l ++ m). split; [now apply Forall_app|]. now rewrite concat_app. Qed.
Lemma white_white_text (w : str) : white w -> white_text w.
Proof. intro H. exists [w]. split; [now constructor|]. cbn. now rewrite app_nil_r. Qed.
Lemma white_text_nil : white_text [].
Proof. exists []. split; [constructor|reflexivity]. Qed.
Lemma trim_start_text (a s : str) : white_text a -> trim_start (a ++ s) = trim_start s.
Proof.
  intros (l & H & ->). induction H as [|w l Hw _ IH]; [reflexivity|]. cbn [List.concat]. rewrite <- app_assoc, trim_start_white by exact Hw. exact IH.
Qed.
Lemma trim_start_rev_text (b s : str) : white_text b -> trim_start_rev (rev b ++ s) = trim_start_rev s.
Proof.
  intros (l & H & ->). revert s. induction H as [|w l Hw _ IH]; intro s; [reflexivity|]. cbn [List.concat]. rewrite rev_app_distr, <- app_assoc, IH.
  now apply trim_start_rev_white.
Qed.
(** What the two functions leave. *)
Lemma white_prefix_dec (s : str) : (exists w x, white w /\ s = w ++ x) \/ forall w x, white w -> s <> w ++ x.
Proof.
  destruct s as [|a s]. { right. intros w x Hw E. apply white_lead in Hw. destruct Hw as (a & y & -> & _). discriminate. }
  destruct (ws1 a) eqn:W1. { left. exists [a], s. split; [apply white_iff; eauto|reflexivity]. }
  destruct s as [|b s].
  { right. intros w x Hw E. apply white_iff in Hw. destruct Hw as [(a' & -> & H)|[(a' & b' & -> & H)|(a' & b' & c' & -> & H)]]; cbn [app] in E; congruence. }
  destruct (ws2 a b) eqn:W2. { left. exists [a; b], s. split; [apply white_iff; right; left; eauto|reflexivity]. }
  destruct s as [|c s].
  { right. intros w x Hw E. apply white_iff in Hw. destruct Hw as [(a' & -> & H)|[(a' & b' & -> & H)|(a' & b' & c' & -> & H)]]; cbn [app] in E; congruence. }
  destruct (ws3 a b c) eqn:W3. { left. exists [a; b; c], s. split; [apply white_iff; right; right; exists a, b, c; auto|reflexivity]. }
  right. intros w x Hw E. apply white_iff in Hw. destruct Hw as [(a' & -> & H)|[(a' & b' & -> & H)|(a' & b' & c' & -> & H)]]; cbn [app] in E; congruence.
Qed.
Lemma white_suffix_dec (s : str) : (exists w x, white w /\ s = x ++ w) \/ forall w x, white w -> s <> x ++ w.
Proof.
  assert (R : forall w x, s = x ++ w -> rev s = rev w ++ rev x) by (intros w x ->; apply rev_app_distr).
  assert (R' : forall w x, rev s = w ++ x -> s = rev x ++ rev w) by (intros w x E; rewrite <- (rev_involutive s), E; apply rev_app_distr).
  destruct (rev s) as [|c u] eqn:E.
  { right. intros w x Hw F. apply R in F. apply white_lead in Hw. destruct Hw as (a & y & -> & _). cbn [rev] in F. rewrite <- app_assoc in F. destruct (rev y); discriminate. }
  destruct (ws1 c) eqn:W1. { left. exists [c], (rev u). split; [apply white_iff; eauto|apply (R' [c] u); reflexivity]. }
  destruct u as [|b u].
  { right. intros w x Hw F. apply R in F. apply white_iff in Hw. destruct Hw as [(a' & -> & H)|[(a' & b' & -> & H)|(a' & b' & c' & -> & H)]]; cbn [rev app] in F; congruence. }
  destruct (ws2 b c) eqn:W2. { left. exists [b; c], (rev u). split; [apply white_iff; right; left; eauto|apply (R' [c; b] u); reflexivity]. }
  destruct u as [|a u].
  { right. intros w x Hw F. apply R in F. apply white_iff in Hw. destruct Hw as [(a' & -> & H)|[(a' & b' & -> & H)|(a' & b' & c' & -> & H)]]; cbn [rev app] in F; congruence. }
  destruct (ws3 a b c) eqn:W3. { left. exists [a; b; c], (rev u). split; [apply white_iff; right; right; exists a, b, c; auto|apply (R' [c; b; a] u); reflexivity]. }
  right. intros w x Hw F. apply R in F. apply white_iff in Hw. destruct Hw as [(a' & -> & H)|[(a' & b' & -> & H)|(a' & b' & c' & -> & H)]]; cbn [rev app] in F; congruence.
Qed.
Lemma white_length (w : str) : white w -> (0 < List.length w)%nat.
Proof. intro H. destruct (white_lead _ H) as (y & z & -> & _). cbn [List.length]. lia. Qed.
Lemma trim_start_spec (s : str) : exists a, white_text a /\ s = a ++ trim_start s /\ forall w x, white w -> trim_start s <> w ++ x.
Proof.
  induction s as [s IH] using (well_founded_induction (Wf_nat.well_founded_ltof str (@List.length ascii))). unfold Wf_nat.ltof in IH.
  destruct (white_prefix_dec s) as [(w & x & Hw & ->)|N].
  - rewrite trim_start_white by exact Hw. destruct (IH x) as (a & Ha & E & N). { pose proof (white_length _ Hw). rewrite app_length. lia. }
    exists (w ++ a). split; [apply white_text_app; [now apply white_white_text|exact Ha]|]. split; [|exact N].
    rewrite <- app_assoc. now rewrite <- E.
  - exists []. rewrite trim_start_id by exact N. split; [exact white_text_nil|]. split; [reflexivity|exact N].
Qed.
Lemma trim_end_spec (s : str) : exists b, white_text b /\ s = rev (trim_start_rev (rev s)) ++ b
  /\ forall w x, white w -> rev (trim_start_rev (rev s)) <> x ++ w.
Proof.
  induction s as [s IH] using (well_founded_induction (Wf_nat.well_founded_ltof str (@List.length ascii))). unfold Wf_nat.ltof in IH.
  destruct (white_suffix_dec s) as [(w & x & Hw & ->)|N].
  - rewrite rev_app_distr, trim_start_rev_white by exact Hw. destruct (IH x) as (b & Hb & E & N). { pose proof (white_length _ Hw). rewrite app_length. lia. }
    exists (b ++ w). split; [apply white_text_app; [exact Hb|now apply white_white_text]|]. split; [|exact N].
    rewrite app_assoc. now rewrite <- E.
  - exists []. rewrite trim_start_rev_id by exact N. rewrite rev_involutive, app_nil_r. split; [exact white_text_nil|]. split; [reflexivity|exact N].
Qed.
Theorem trimmed_iff (s t : str) : trimmed s t <-> trim s = t.
Proof.
  split.
  - intros ((a & b & Ha & Hb & ->) & Np & Ns). unfold trim. rewrite trim_start_text by exact Ha.
    destruct t as [|c t].
    + cbn [app]. rewrite <- (app_nil_r b), trim_start_text by exact Hb. reflexivity.
    + rewrite trim_start_id.
      * rewrite rev_app_distr, trim_start_rev_text by exact Hb. rewrite trim_start_rev_id by exact Ns. apply rev_involutive.
      * intros w x Hw E. destruct (app_eq_app _ _ _ _ E) as (l & [[E1 E2]|[E1 E2]]); [exact (Np _ _ Hw E1)|].
        destruct l as [|d l]. { rewrite app_nil_r in E1. apply (Np w [] Hw). rewrite app_nil_r. now symmetry. }
        destruct (white_lead _ Hw) as (y & z & -> & _ & F). injection E1 as <- ->. apply Forall_app in F. destruct F as [_ F]. inversion F; subst.
        destruct Hb as (bl & Hbl & Eb). destruct Hbl as [|w' bl Hw' _]; [discriminate Eb|]. destruct (white_lead _ Hw') as (y' & z' & -> & L & _).
        cbn [List.concat app] in Eb. injection Eb as -> _. unfold lead in L. lia.
  - intros <-. unfold trim. destruct (trim_start_spec s) as (a & Ha & Ea & Na). destruct (trim_end_spec (trim_start s)) as (b & Hb & Eb & Nb).
    split; [|split; [|exact Nb]].
    + exists a, b. split; [exact Ha|]. split; [exact Hb|]. rewrite <- Eb. exact Ea.
    + intros w x Hw E. apply (Na w (x ++ b) Hw). rewrite Eb, E, <- app_assoc. reflexivity.
Qed.
Lemma trimmed_trim (s : str) : trimmed s (trim s).
Proof. now apply trimmed_iff. Qed.
