(** [str::trim] on ASCII text. *)
From Verif Require Export StrFacts Base64Facts.

Definition all_ascii (s : str) : Prop := Forall (fun c => (code c < 128)%N) s.
Lemma ws2_ascii (a b : ascii) : (code a < 128)%N -> ws2 a b = false.
Proof. unfold ws2. intro H. lia. Qed.
Lemma ws3_ascii (a b c : ascii) : (code a < 128)%N -> ws3 a b c = false.
Proof. unfold ws3. intro H. lia. Qed.
Lemma trim_start_ascii (s : str) : all_ascii s -> trim_start s = drop_while ws1 s.
Proof.
  induction 1 as [|a s Ha _ IH]; [reflexivity|]. cbn [trim_start drop_while]. destruct (ws1 a); [exact IH|].
  destruct s as [|b s]; [reflexivity|]. rewrite ws2_ascii by exact Ha.
  destruct s as [|c s]; [reflexivity|]. now rewrite ws3_ascii.
Qed.
Lemma trim_start_rev_ascii (s : str) : all_ascii s -> trim_start_rev s = drop_while ws1 s.
Proof.
  induction 1 as [|a s Ha Hs IH]; [reflexivity|]. cbn [trim_start_rev drop_while]. destruct (ws1 a); [exact IH|].
  destruct s as [|b s]; [reflexivity|]. rewrite ws2_ascii by (inversion Hs; assumption).
  destruct s as [|c s]; [reflexivity|]. rewrite ws3_ascii; [reflexivity|]. inversion Hs as [|? ? _ H2]; subst. now inversion H2.
Qed.
Lemma all_ascii_drop (f : ascii -> bool) (s : str) : all_ascii s -> all_ascii (drop_while f s).
Proof. induction 1 as [|a s Ha Hs IH]; [constructor|]. cbn [drop_while]. destruct (f a); [exact IH|now constructor]. Qed.
Lemma all_ascii_rev (s : str) : all_ascii s -> all_ascii (rev s).
Proof. apply Forall_rev. Qed.
Lemma trim_ascii (s : str) : all_ascii s -> trim s = rev (drop_while ws1 (rev (drop_while ws1 s))).
Proof.
  intro H. unfold trim. rewrite trim_start_ascii by exact H.
  rewrite trim_start_rev_ascii by now apply all_ascii_rev, all_ascii_drop. reflexivity.
Qed.
Definition no_edge_ws (s : str) : Prop := (forall c x, s = c :: x -> ws1 c = false) /\ (forall c x, s = x ++ [c] -> ws1 c = false).
Lemma drop_ws_blank (a s : str) : forallb ws1 a = true -> (forall c x, s = c :: x -> ws1 c = false) -> drop_while ws1 (a ++ s) = s.
Proof.
  intros Ha Hs. induction a as [|x a IH]; cbn [app].
  - destruct s as [|c s]; [reflexivity|]. cbn [drop_while]. now rewrite (Hs c s eq_refl).
  - cbn [forallb] in Ha. apply andb_true_iff in Ha. destruct Ha as [Hx Ha]. cbn [drop_while]. rewrite Hx. now apply IH.
Qed.
Lemma forallb_rev {A} (f : A -> bool) (l : list A) : forallb f (rev l) = forallb f l.
Proof.
  induction l as [|x l IH]; [reflexivity|]. cbn [rev]. rewrite forallb_app, IH. cbn [forallb]. destruct (f x), (forallb f l); reflexivity.
Qed.
(** Blanks around a text without blanks at its ends are removed. *)
Lemma trim_blanks (a s b : str) : all_ascii (a ++ s ++ b) -> forallb ws1 a = true -> forallb ws1 b = true -> no_edge_ws s ->
  trim (a ++ s ++ b) = s.
Proof.
  intros H Ha Hb [H1 H2]. rewrite trim_ascii by exact H.
  destruct s as [|c s].
  - cbn [app]. rewrite <- (app_nil_r (a ++ b)). rewrite drop_ws_blank; [reflexivity| |discriminate].
    now rewrite forallb_app, Ha, Hb.
  - rewrite drop_ws_blank by (exact Ha || (intros d x E; cbn [app] in E; injection E as <- _; now apply (H1 c s))).
    rewrite rev_app_distr, drop_ws_blank.
    + apply rev_involutive.
    + now rewrite forallb_rev.
    + intros d x E. apply (H2 d (rev x)). rewrite <- (rev_involutive (c :: s)), E. reflexivity.
Qed.
Lemma trim_id (s : str) : all_ascii s -> no_edge_ws s -> trim s = s.
Proof.
  intros H N. pose proof (trim_blanks [] s []) as T. cbn [app] in T. rewrite app_nil_r in T. now apply T.
Qed.
Lemma no_ws_edges (s : str) : Forall (fun c => ws1 c = false) s -> no_edge_ws s.
Proof.
  intro H. rewrite Forall_forall in H. split; intros c x E; apply H; rewrite E; [now left|apply in_or_app; right; now left].
Qed.
Lemma b64_text_chars (c : ascii) : is_b64_char c = true -> (code c < 128)%N /\ ws1 c = false /\ c <> ","%char.
Proof.
  pose proof (byte_all (fun c => implb (is_b64_char c) ((code c <? 128)%N && negb (ws1 c) && negb (Ascii.eqb c ",")))) as B.
  intro H. specialize (B ltac:(vm_compute; reflexivity) c). cbv beta in B. rewrite H in B. cbn [implb] in B.
  apply andb_true_iff in B. destruct B as [B B3]. apply andb_true_iff in B. destruct B as [B1 B2].
  split; [lia|]. split; [now apply negb_true_iff|]. intros ->. discriminate B3.
Qed.
Lemma b64_encode_ascii (s : str) : all_ascii (b64_encode s).
Proof.
  destruct (b64_encode_chars s) as [H _]. apply Forall_forall. intros c Hc. apply b64_text_chars. now apply (forallb_In _ _ _ H).
Qed.
Lemma trim_b64 (s : str) : trim (b64_encode s) = b64_encode s.
Proof.
  destruct (b64_encode_chars s) as [H _]. apply trim_id; [apply b64_encode_ascii|]. apply no_ws_edges.
  apply Forall_forall. intros c Hc. apply b64_text_chars. now apply (forallb_In _ _ _ H).
Qed.
Lemma b64_no_comma (s : str) : ~ In ","%char (b64_encode s).
Proof.
  destruct (b64_encode_chars s) as [H _]. intro Hc. apply (forallb_In _ _ _ H) in Hc. now apply b64_text_chars in Hc.
Qed.
