(** Proofs about the text form of requests (for PropText.v). *)
From Verif Require Export SpecText QueryFacts LineFacts TrimFacts WhiteFacts.

(** ** UTF-8 text *)
Lemma utf8_nil : utf8_text [].
Proof. exists []. split; [constructor|reflexivity]. Qed.
Lemma utf8_app (a b : str) : utf8_text a -> utf8_text b -> utf8_text (a ++ b).
Proof.
  intros (l & F & ->) (m & G & ->). exists (l ++ m). split; [now apply Forall_app|]. now rewrite concat_app.
Qed.
Lemma utf8_ascii1 (c : ascii) : (code c < 128)%N -> utf8_char [c].
Proof. intro H. apply utf8_char_wf. cbn [wf_char]. unfold is_ascii_byte. lia. Qed.
Lemma utf8_ascii (s : str) : all_ascii s -> utf8_text s.
Proof.
  induction 1 as [|c s C _ IH]; [exact utf8_nil|]. change (c :: s) with ([c] ++ s). apply utf8_app; [|exact IH].
  exists [[c]]. split; [|reflexivity]. constructor; [now apply utf8_ascii1|constructor].
Qed.
Lemma utf8_text_cons (c : str) (s : str) : utf8_char c -> utf8_text s -> utf8_text (c ++ s).
Proof. intros C (l & F & ->). exists (c :: l). split; [now constructor|reflexivity]. Qed.
Lemma valid_fuel_iff (f : nat) (s : str) : (List.length s <= f)%nat -> (valid_fuel f s = true <-> utf8_text s).
Proof.
  revert s. induction f as [|f IH]; intros s L; cbn [valid_fuel].
  - destruct s; [|cbn in L; lia]. split; [intros _; exact utf8_nil|reflexivity].
  - destruct s as [|a r]; [split; [intros _; exact utf8_nil|reflexivity]|].
    destruct (utf8_head a r) as [n|n] eqn:H.
    + apply step_char in H. destruct H as [W B]. rewrite IH by (rewrite skipn_length; cbn [List.length] in *; lia). split.
      * intro T. rewrite <- (firstn_skipn n (a :: r)). apply utf8_text_cons; [now apply utf8_char_wf|exact T].
      * intros (l & F & E). destruct F as [|c l C F]; [discriminate|]. cbn [List.concat] in E.
        rewrite <- (firstn_skipn n (a :: r)) in E. apply utf8_char_len in E; [|now apply utf8_char_wf|exact C].
        destruct E as [_ ->]. exists l. split; [exact F|reflexivity].
    + split; [discriminate|]. intros (l & F & E). destruct F as [|c l C F]; [discriminate|]. cbn [List.concat] in E.
      apply step_bad in H. cbv zeta in H. destruct H as (_ & _ & H & _). exfalso. specialize (H c (List.concat l) E).
      apply utf8_char_wf in C. congruence.
Qed.
Lemma utf8_valid_iff (s : str) : utf8_valid s = true <-> utf8_text s.
Proof. apply valid_fuel_iff. lia. Qed.
(** A character of several bytes has no ASCII byte. *)
Lemma utf8_char_ascii (x : str) (c : ascii) : utf8_char x -> In c x -> (code c < 128)%N -> x = [c].
Proof.
  intros C I L. apply utf8_char_wf in C. destruct x as [|a [|b [|d [|e [|f x]]]]]; try discriminate; cbn [wf_char] in C.
  - destruct I as [->|[]]. reflexivity.
  - exfalso. unfold in_range, is_cont, in_range in C. destruct I as [->|[->|[]]]; lia.
  - exfalso. assert (S : (128 <= code b)%N).
    { apply andb_prop in C. destruct C as [C _]. apply andb_prop in C. destruct C as [_ C]. unfold second_ok, in_range, is_cont, in_range in C.
      destruct (_ =? _)%N; [lia|]. destruct (_ =? _)%N; [lia|]. destruct (_ =? _)%N; [lia|]. destruct (_ =? _)%N; lia. }
    unfold in_range, is_cont, in_range in C. destruct I as [->|[->|[->|[]]]]; lia.
  - exfalso. assert (S : (128 <= code b)%N).
    { apply andb_prop in C. destruct C as [C _]. apply andb_prop in C. destruct C as [C _]. apply andb_prop in C. destruct C as [_ C]. unfold second_ok, in_range, is_cont, in_range in C.
      destruct (_ =? _)%N; [lia|]. destruct (_ =? _)%N; [lia|]. destruct (_ =? _)%N; [lia|]. destruct (_ =? _)%N; lia. }
    unfold in_range, is_cont, in_range in C. destruct I as [->|[->|[->|[->|[]]]]]; lia.
Qed.
Lemma utf8_split (c : ascii) (a b : str) : (code c < 128)%N -> utf8_text (a ++ c :: b) -> utf8_text a /\ utf8_text b.
Proof.
  intros L (l & F & E). revert a E. induction F as [|x l X F IH]; intros a E; [destruct a; discriminate|].
  cbn [List.concat] in E. destruct (Nat.le_gt_cases (List.length x) (List.length a)) as [H|H].
  - symmetry in E. destruct (app_prefix _ _ _ _ E H) as (e & -> & E2). destruct (IH e) as [U V]; [congruence|].
    split; [|exact V]. now apply utf8_text_cons.
  - destruct (app_prefix _ _ _ _ E) as (e & -> & E2); [lia|].
    destruct e as [|d e]; [rewrite app_nil_r in H; lia|]. cbn [app] in E2. apply cons_eq in E2. destruct E2 as [<- E2].
    assert (Y : a ++ c :: e = [c]) by (apply utf8_char_ascii; [exact X|apply in_or_app; right; now left|exact L]).
    destruct a as [|y a]; [|destruct a; discriminate]. cbn [app] in Y. apply cons_eq in Y. destruct Y as [_ ->]. cbn [app] in E2. subst b.
    split; [exact utf8_nil|]. exists l. split; [exact F|reflexivity].
Qed.

(** ** Lines *)
Lemma take_line_lf (a b : str) : ~ In ch_lf a -> take_line (a ++ ch_lf :: b) = (a ++ [ch_lf], b).
Proof.
  induction a as [|c a IH]; intro N; cbn [app take_line]; [reflexivity|].
  destruct (Ascii.eqb_spec c ch_lf) as [->|E]; [exfalso; apply N; now left|]. rewrite IH; [reflexivity|]. intro I. apply N. now right.
Qed.
Lemma take_line_app (s : str) : let '(l, r) := take_line s in s = l ++ r.
Proof.
  induction s as [|c s IH]; [reflexivity|]. cbn [take_line]. destruct (Ascii.eqb c ch_lf); [reflexivity|].
  destruct (take_line s) as [l r]. cbn [app]. now rewrite IH.
Qed.
Lemma read_line_lf (a b : str) : ~ In ch_lf a -> utf8_text a -> read_line (a ++ ch_lf :: b) = Some (a ++ [ch_lf], b).
Proof.
  intros N U. unfold read_line. rewrite take_line_lf by exact N.
  assert (V : utf8_valid (a ++ [ch_lf]) = true); [|now rewrite V].
  apply utf8_valid_iff, utf8_app; [exact U|]. apply utf8_ascii. repeat constructor.
Qed.
Lemma read_line_ok (s l r : str) : read_line s = Some (l, r) -> s = l ++ r /\ utf8_text l.
Proof.
  unfold read_line. pose proof (take_line_app s) as T. destruct (take_line s) as [l' r']. destruct (utf8_valid l') eqn:V; [|discriminate].
  intro H. injection H as <- <-. split; [exact T|now apply utf8_valid_iff].
Qed.

(** ** Words *)
Lemma blank_iff (c : ascii) : ascii_blank c <-> is_ascii_ws c = true.
Proof. unfold ascii_blank, is_ascii_ws, code. cbn [In]. lia. Qed.
Lemma ws_word (w : str) (c : ascii) (s cur : str) : Forall (fun x => is_ascii_ws x = false) w -> is_ascii_ws c = true ->
  (w <> [] \/ cur <> []) -> split_ws_aux (w ++ c :: s) cur = (rev cur ++ w) :: split_ws_aux s [].
Proof.
  intro F. revert cur. induction F as [|x w X F IH]; intros cur C N; cbn [app split_ws_aux].
  - rewrite C. destruct cur as [|y cur]; [destruct N as [N|N]; contradiction|]. now rewrite app_nil_r.
  - rewrite X, IH; [|exact C|right; discriminate]. cbn [rev]. now rewrite <- app_assoc.
Qed.
Lemma three_words (a b c : str) : a <> [] -> b <> [] -> c <> [] ->
  Forall (fun x => is_ascii_ws x = false) a -> Forall (fun x => is_ascii_ws x = false) b -> Forall (fun x => is_ascii_ws x = false) c ->
  split_ascii_whitespace (a ++ $" " ++ b ++ $" " ++ c ++ [ch_lf]) = [a; b; c].
Proof.
  intros Na Nb Nc Fa Fb Fc. unfold split_ascii_whitespace.
  cbn [s2b list_ascii_of_string app]. rewrite (ws_word a " "), (ws_word b " "), (ws_word c ch_lf); auto; reflexivity.
Qed.
(** The words of a text are its pieces. *)
Lemma words_of (s cur : str) : utf8_text (rev cur ++ s) -> Forall (fun x => is_ascii_ws x = false) cur ->
  Forall (fun w => w <> [] /\ utf8_text w /\ Forall (fun x => is_ascii_ws x = false) w) (split_ws_aux s cur).
Proof.
  revert cur. induction s as [|x s IH]; intros cur U F; cbn [split_ws_aux].
  - rewrite app_nil_r in U. destruct cur as [|y cur]; [constructor|]. constructor; [|constructor].
    split; [cbn [rev]; destruct (rev cur); discriminate|]. split; [exact U|]. now apply Forall_rev.
  - destruct (is_ascii_ws x) eqn:X.
    + assert (L : (code x < 128)%N) by (unfold is_ascii_ws in X; lia).
      destruct (utf8_split x (rev cur) s L U) as [U1 U2]. destruct cur as [|y cur]; [now apply IH|].
      constructor; [|now apply IH]. split; [cbn [rev]; destruct (rev cur); discriminate|]. split; [exact U1|]. now apply Forall_rev.
    + apply IH; [|now constructor]. cbn [rev]. now rewrite <- app_assoc.
Qed.

(** ** Trimming *)
Lemma trim_start_suffix (s : str) : exists p, s = p ++ trim_start s.
Proof.
  induction s as [s IH] using (well_founded_induction (Wf_nat.well_founded_ltof str (@List.length ascii))).
  unfold Wf_nat.ltof in IH. destruct s as [|a s1]; [now exists []|]. cbn [trim_start]. destruct (ws1 a).
  { destruct (IH s1) as [p P]; [cbn; lia|]. exists (a :: p). cbn [app]. now rewrite <- P. }
  destruct s1 as [|b s2]; [now exists []|]. destruct (ws2 a b).
  { destruct (IH s2) as [p P]; [cbn; lia|]. exists (a :: b :: p). cbn [app]. now rewrite <- P. }
  destruct s2 as [|c s3]; [now exists []|]. destruct (ws3 a b c); [|now exists []].
  destruct (IH s3) as [p P]; [cbn; lia|]. exists (a :: b :: c :: p). cbn [app]. now rewrite <- P.
Qed.
Lemma trim_start_head (s : str) : forall c x, trim_start s = c :: x -> ws1 c = false.
Proof.
  induction s as [s IH] using (well_founded_induction (Wf_nat.well_founded_ltof str (@List.length ascii))).
  unfold Wf_nat.ltof in IH. intros d x. destruct s as [|a s1]; [discriminate|]. cbn [trim_start]. destruct (ws1 a) eqn:W.
  { apply (IH s1). cbn; lia. }
  destruct s1 as [|b s2]; [intro H; injection H as <- _; exact W|]. destruct (ws2 a b); [apply (IH s2); cbn; lia|].
  destruct s2 as [|c s3]; [intro H; injection H as <- _; exact W|]. destruct (ws3 a b c); [apply (IH s3); cbn; lia|].
  intro H; injection H as <- _; exact W.
Qed.
Lemma trim_start_rev_suffix (s : str) : exists p, s = p ++ trim_start_rev s.
Proof.
  induction s as [s IH] using (well_founded_induction (Wf_nat.well_founded_ltof str (@List.length ascii))).
  unfold Wf_nat.ltof in IH. destruct s as [|a s1]; [now exists []|]. cbn [trim_start_rev]. destruct (ws1 a).
  { destruct (IH s1) as [p P]; [cbn; lia|]. exists (a :: p). cbn [app]. now rewrite <- P. }
  destruct s1 as [|b s2]; [now exists []|]. destruct (ws2 b a).
  { destruct (IH s2) as [p P]; [cbn; lia|]. exists (a :: b :: p). cbn [app]. now rewrite <- P. }
  destruct s2 as [|c s3]; [now exists []|]. destruct (ws3 c b a); [|now exists []].
  destruct (IH s3) as [p P]; [cbn; lia|]. exists (a :: b :: c :: p). cbn [app]. now rewrite <- P.
Qed.
Lemma trim_start_rev_head (s : str) : forall c x, trim_start_rev s = c :: x -> ws1 c = false.
Proof.
  induction s as [s IH] using (well_founded_induction (Wf_nat.well_founded_ltof str (@List.length ascii))).
  unfold Wf_nat.ltof in IH. intros d x. destruct s as [|a s1]; [discriminate|]. cbn [trim_start_rev]. destruct (ws1 a) eqn:W.
  { apply (IH s1). cbn; lia. }
  destruct s1 as [|b s2]; [intro H; injection H as <- _; exact W|]. destruct (ws2 b a); [apply (IH s2); cbn; lia|].
  destruct s2 as [|c s3]; [intro H; injection H as <- _; exact W|]. destruct (ws3 c b a); [apply (IH s3); cbn; lia|].
  intro H; injection H as <- _; exact W.
Qed.
Lemma trim_edges (s : str) : no_edge_ws (trim s).
Proof.
  unfold trim. set (t := trim_start s). destruct (trim_start_rev_suffix (rev t)) as [p P].
  assert (E : t = rev (trim_start_rev (rev t)) ++ rev p). { rewrite <- rev_app_distr, <- P. symmetry. apply rev_involutive. }
  split.
  - intros c x H. rewrite H in E. cbn [app] in E. exact (trim_start_head s c _ E).
  - intros c x H. apply (trim_start_rev_head (rev t) c (rev x)). rewrite <- (rev_involutive (trim_start_rev (rev t))), H.
    now rewrite rev_app_distr.
Qed.

(** ** Header lines *)
Lemma hname_ascii (h : str) : hname_ok h = true -> all_ascii h /\ Forall (fun c => ws1 c = false /\ c <> ":"%char /\ c <> ch_lf) h /\ h <> [].
Proof.
  intro H. unfold hname_ok in H. apply andb_prop in H. destruct H as [H F]. apply andb_prop in H. destruct H as [H _].
  assert (X : forallb (fun c => implb (is_tchar c) ((code c <? 128)%N && negb (ws1 c) && negb (Ascii.eqb c ":") && negb (Ascii.eqb c ch_lf))) all_bytes = true)
    by (vm_compute; reflexivity).
  assert (G : forall c, In c h -> (code c < 128)%N /\ ws1 c = false /\ c <> ":"%char /\ c <> ch_lf).
  { intros c I. rewrite forallb_forall in F. specialize (F c I). apply andb_prop in F. destruct F as [F _].
    apply byte_all with (c := c) in X. cbv beta in X. rewrite F in X. cbn [implb] in X.
    apply andb_prop in X. destruct X as [X X4]. apply andb_prop in X. destruct X as [X X3]. apply andb_prop in X. destruct X as [X1 X2].
    split; [lia|]. split; [now apply negb_true_iff|]. split; [intros ->; discriminate X3|intros ->; discriminate X4]. }
  split; [apply Forall_forall; intros c I; now apply G|]. split; [apply Forall_forall; intros c I; now apply G|].
  destruct h; [discriminate H|discriminate].
Qed.
Lemma value_iff (v : str) : Forall (fun c => visible c \/ c = ascii_of_nat 9) v <-> hvalue_visible v = true.
Proof.
  unfold hvalue_visible. rewrite forallb_forall, Forall_forall. split; intros H c I; specialize (H c I).
  - apply orb_true_iff. destruct H as [H| ->]; [left; now apply visible_iff|right; reflexivity].
  - apply orb_true_iff in H. destruct H as [H|H]; [left; now apply visible_iff|right]. apply N.eqb_eq in H.
    apply code_inj. rewrite H. reflexivity.
Qed.
Lemma value_ascii (v : str) : hvalue_visible v = true -> all_ascii v /\ ~ In ch_lf v /\ hvalue_ok v = true.
Proof.
  intro H. unfold hvalue_visible in H. rewrite forallb_forall in H.
  assert (X : forallb (fun c => implb (is_visible c || (code c =? 9)%N) ((code c <? 128)%N && negb (Ascii.eqb c ch_lf) && hvalue_byte c)) all_bytes = true)
    by (vm_compute; reflexivity).
  assert (G : forall c, In c v -> (code c < 128)%N /\ c <> ch_lf /\ hvalue_byte c = true).
  { intros c I. specialize (H c I). apply byte_all with (c := c) in X. cbv beta in X. rewrite H in X. cbn [implb] in X.
    apply andb_prop in X. destruct X as [X X3]. apply andb_prop in X. destruct X as [X1 X2]. split; [lia|]. split; [intros ->; discriminate X2|exact X3]. }
  split; [apply Forall_forall; intros c I; now apply G|]. split; [intro I; now apply G in I|]. apply forallb_forall. intros c I. now apply G.
Qed.
Lemma plain_edges (v : str) : plain_value v -> hvalue_visible v = true /\ no_edge_ws v.
Proof.
  intros (V & A & B). split; [now apply value_iff|].
  assert (X : forall c, In c v -> ~ blank c -> ws1 c = false).
  { intros c I N. rewrite Forall_forall in V. specialize (V c I). destruct V as [V| ->]; [|exfalso; apply N; now right].
    unfold ws1, in_range. destruct (code c =? 32)%N eqn:E.
    - exfalso. apply N. left. apply code_inj. apply N.eqb_eq in E. exact E.
    - unfold visible in V. fold (code c) in V. lia. }
  split; intros c x E.
  - apply X; [rewrite E; now left|]. eapply A. exact E.
  - apply X; [rewrite E; apply in_or_app; right; now left|]. eapply B. exact E.
Qed.
Lemma edges_plain (v : str) : hvalue_visible v = true -> no_edge_ws v -> plain_value v.
Proof.
  intros V (A & B). split; [now apply value_iff|]. split; intros c x E N.
  - specialize (A c x E). destruct N as [->| ->]; discriminate.
  - specialize (B c x E). destruct N as [->| ->]; discriminate.
Qed.
Lemma trim_nonblank (s : str) (c : ascii) : all_ascii s -> In c s -> ws1 c = false -> trim s <> [].
Proof.
  intros A I W E. rewrite trim_ascii in E by exact A.
  assert (G : forall l, In c l -> In c (drop_while ws1 l)).
  { intro l. induction l as [|x l IH]; [trivial|]. intros [->|J]; cbn [drop_while]; [rewrite W; now left|].
    destruct (ws1 x); [now apply IH|now right]. }
  apply G in I. apply in_rev in I. apply G in I. apply in_rev in I. now rewrite E in I.
Qed.
Lemma hm_insert_new (m : header_map) (n v : str) : ~ In n (map fst m) -> hm_insert m n v = m ++ [(n, v)].
Proof.
  induction m as [|[k w] m IH]; cbn [hm_insert map fst In app]; intro N; [reflexivity|].
  destruct (str_eqb k n) eqn:E; [apply str_eqb_eq in E; exfalso; apply N; now left|]. rewrite IH; [reflexivity|tauto].
Qed.

Lemma read_header_line (f : nat) (n v tail : str) (acc : header_map) : header_name n -> plain_value v -> ~ In n (map fst acc) ->
  read_headers (Datatypes.S f) (header_line (n, v) ++ tail) acc = read_headers f tail (acc ++ [(n, v)]).
Proof.
  intros Hn Hv N. apply header_name_ok in Hn. destruct (hname_ascii n Hn) as (An & Fn & Nn).
  destruct (plain_edges v Hv) as (Vv & Ev). destruct (value_ascii v Vv) as (Av & Lv & Ov).
  assert (E : header_line (n, v) ++ tail = (n ++ $": " ++ v) ++ ch_lf :: tail).
  { unfold header_line. cbn [fst snd]. rewrite <- !app_assoc. reflexivity. }
  rewrite E. cbn [read_headers]. rewrite read_line_lf.
  2:{ rewrite in_app_iff. cbn [s2b list_ascii_of_string app In]. rewrite Forall_forall in Fn. intros [I|[I|[I|I]]]; [now apply Fn in I|discriminate|discriminate|contradiction]. }
  2:{ apply utf8_ascii. apply Forall_app. split; [exact An|]. cbn [s2b list_ascii_of_string app]. repeat (constructor; [reflexivity|]). exact Av. }
  destruct ((n ++ $": " ++ v) ++ [ch_lf]) as [|y line] eqn:L; [destruct n; discriminate|]. rewrite <- L.
  assert (T : trim ((n ++ $": " ++ v) ++ [ch_lf]) <> []).
  { destruct n as [|c n]; [contradiction|]. apply trim_nonblank with (c := c).
    - apply Forall_app. split; [|repeat constructor]. apply Forall_app. split; [exact An|]. cbn [s2b list_ascii_of_string app]. repeat (constructor; [reflexivity|]). exact Av.
    - now left.
    - now inversion Fn. }
  destruct (trim ((n ++ $": " ++ v) ++ [ch_lf])) as [|z tr]; [contradiction|]. clear T z tr L y line.
  assert (S : split_once ":" ((n ++ $": " ++ v) ++ [ch_lf]) = Some (n, $" " ++ v ++ [ch_lf])).
  { apply split_once_spec. split; [rewrite <- !app_assoc; reflexivity|]. rewrite Forall_forall in Fn. intro I. now apply Fn in I. }
  rewrite S. assert (Tn : trim n = n). { apply trim_id; [exact An|]. apply no_ws_edges. revert Fn. apply Forall_impl. tauto. }
  assert (Tv : trim ($" " ++ v ++ [ch_lf]) = v).
  { apply trim_blanks; [|reflexivity|reflexivity|exact Ev]. cbn [s2b list_ascii_of_string app]. constructor; [reflexivity|].
    apply Forall_app. split; [exact Av|repeat constructor]. }
  rewrite Tn, Tv. rewrite (hname_parse_ok n Hn). unfold hvalue_parse. rewrite Ov. now rewrite hm_insert_new.
Qed.
Lemma read_header_lines (hs acc : header_map) (tail : str) (f : nat) :
  Forall (fun h => header_name (fst h) /\ plain_value (snd h)) hs -> NoDup (map fst (acc ++ hs)) ->
  read_headers (List.length hs + f) (List.concat (map header_line hs) ++ tail) acc = read_headers f tail (acc ++ hs).
Proof.
  intro F. revert acc. induction F as [|[n v] hs [Hn Hv] F IH]; intros acc D; cbn [map List.concat List.length app fst snd] in *; [now rewrite app_nil_r|].
  cbn [Nat.add]. rewrite <- app_assoc. rewrite read_header_line; try assumption.
  - rewrite (IH (acc ++ [(n, v)])); rewrite <- app_assoc; [reflexivity|exact D].
  - rewrite map_app in D. cbn [map fst] in D. apply NoDup_remove_2 in D. intro I. apply D. apply in_or_app. now left.
Qed.
Lemma read_all_headers (r : mock) (hs : header_map) (b : option str) (tail : str) :
  Forall (fun h => header_name (fst h) /\ plain_value (snd h)) hs -> NoDup (map fst hs) ->
  tail = match b with Some b => ch_lf :: b | None => [] end ->
  read_headers (Datatypes.S (List.length (List.concat (map header_line hs) ++ tail))) (List.concat (map header_line hs) ++ tail) []
  = Some (hs, match b with Some _ => true | None => false end, match b with Some b => b | None => [] end).
Proof.
  intros F D E.
  assert (L : exists g, Datatypes.S (List.length (List.concat (map header_line hs) ++ tail)) = (List.length hs + Datatypes.S g)%nat).
  { assert (X : (List.length hs <= List.length (List.concat (map header_line hs)))%nat).
    { clear. induction hs as [|[n v] hs IH]; cbn [map List.concat List.length]; [lia|]. rewrite app_length.
      unfold header_line at 1. cbn [fst snd]. rewrite !app_length. cbn [List.length]. lia. }
    exists (List.length (List.concat (map header_line hs) ++ tail) - List.length hs)%nat. rewrite app_length. lia. }
  destruct L as [g ->]. rewrite (read_header_lines hs [] tail _ F D). cbn [app].
  subst tail. destruct b as [b|]; reflexivity.
Qed.

(** ** Writing and reading *)
Lemma write_headers_iff (hs : header_map) (t : str) : write_headers hs = (t, true) <->
  Forall (fun h => hvalue_visible (snd h) = true) hs /\ t = List.concat (map header_line hs).
Proof.
  revert t. induction hs as [|[n v] hs IH]; intro t; cbn [write_headers map List.concat].
  - split; [intro H; injection H as <-; split; [constructor|reflexivity]|now intros [_ ->]].
  - unfold hvalue_to_str. destruct (hvalue_visible v) eqn:V.
    + destruct (write_headers hs) as [t' [|]] eqn:W.
      * destruct (proj1 (IH t') eq_refl) as [F ->]. split.
        -- intro H. injection H as <-. split; [now constructor|]. unfold header_line. cbn [fst snd]. now rewrite <- !app_assoc.
        -- intros [_ ->]. unfold header_line. cbn [fst snd]. now rewrite <- !app_assoc.
      * split; [discriminate|]. intros [F ->]. inversion F as [|? ? _ F']; subst. exfalso.
        assert (X : (t', false) = (List.concat (map header_line hs), true)) by (apply IH; auto). discriminate.
    + split; [discriminate|]. intros [F _]. inversion F as [|? ? V' _]; subst. cbn [snd] in V'. congruence.
Qed.
Lemma write_headers_cut (hs : header_map) (t : str) : write_headers hs = (t, false) <->
  exists before n v after, hs = before ++ (n, v) :: after /\ Forall (fun h => hvalue_visible (snd h) = true) before
    /\ hvalue_visible v = false /\ t = List.concat (map header_line before).
Proof.
  revert t. induction hs as [|[n v] hs IH]; intro t; cbn [write_headers].
  - split; [discriminate|]. intros ([|x before] & n & v & after & H & _); discriminate.
  - unfold hvalue_to_str. destruct (hvalue_visible v) eqn:V.
    + destruct (write_headers hs) as [t' b] eqn:W. split.
      * intro H. injection H as <- ->. destruct (proj1 (IH t') eq_refl) as (before & m & x & after & -> & F & X & ->).
        exists ((n, v) :: before), m, x, after. repeat split; [now constructor|exact X|]. cbn [map List.concat]. unfold header_line at 2. cbn [fst snd]. now rewrite <- !app_assoc.
      * intros ([|y before] & m & x & after & H & F & X & ->); cbn [app] in H.
        -- injection H as -> -> ->. congruence.
        -- injection H as <- ->. inversion F as [|? ? _ F']; subst.
           assert (Y : (t', b) = (List.concat (map header_line before), false)) by (apply IH; exists before, m, x, after; auto).
           injection Y as -> ->. cbn [map List.concat]. unfold header_line at 2. cbn [fst snd]. now rewrite <- !app_assoc.
    + split.
      * intro H. injection H as <-. exists [], n, v, hs. repeat split; [constructor|exact V].
      * intros ([|y before] & m & x & after & H & F & X & ->); [reflexivity|]. cbn [app] in H. injection H as <- ->.
        inversion F as [|? ? V' _]; subst. cbn [snd] in V'. congruence.
Qed.
Lemma shown_iff (r : mock) : shown r <-> Forall (fun h => hvalue_visible (snd h) = true) (mr_headers r).
Proof. unfold shown. split; apply Forall_impl; intros h; apply value_iff. Qed.
Lemma write_iff (r : mock) (t : str) : write r = Some t <-> shown r /\ t = request_text r.
Proof.
  unfold write, write_out, request_text. rewrite shown_iff. destruct (write_headers (mr_headers r)) as [hs [|]] eqn:W.
  - apply write_headers_iff in W. destruct W as [F ->]. split; [intro H; injection H as <-; auto|now intros [_ ->]].
  - split; [discriminate|]. intros [F _]. exfalso.
    assert (X : write_headers (mr_headers r) = (List.concat (map header_line (mr_headers r)), true)) by now apply write_headers_iff. congruence.
Qed.
Lemma target_url_iff (up : url_parser) (path : str) (hs : header_map) (u : url) :
  target_url up path hs u <-> derive_url up path hs = Done (Some u).
Proof.
  unfold target_url, derive_url. destruct (up path) as [v|[]] eqn:E.
  - split; [intros [H|[H _]]; congruence|]. intro H. left. congruence.
  - change (hm_get hs h_host) with (hm_get hs $"host"). rewrite <- first_value_get. split.
    + intros [H|(_ & host & F & V & U)]; [discriminate|]. rewrite F. apply value_iff in V. unfold hvalue_to_str. rewrite V, U. reflexivity.
    + intro H. right. split; [reflexivity|]. destruct (first_value hs $"host") as [host|]; [|discriminate].
      exists host. split; [reflexivity|]. unfold hvalue_to_str in H. destruct (hvalue_visible host) eqn:V; [|discriminate].
      split; [now apply value_iff|]. destruct (up ($"http://" ++ host ++ path)); [|discriminate]. congruence.
  - split; [intros [H|[H _]]; discriminate|discriminate].
Qed.
Lemma tchar_not_ws (c : ascii) : is_tchar c = true -> is_ascii_ws c = false /\ (code c < 128)%N.
Proof.
  assert (X : forallb (fun c => implb (is_tchar c) (negb (is_ascii_ws c) && (code c <? 128)%N)) all_bytes = true) by (vm_compute; reflexivity).
  apply byte_all with (c := c) in X. cbv beta in X. intro H. rewrite H in X. cbn [implb] in X. apply andb_prop in X. destruct X as [X1 X2].
  apply negb_true_iff in X1. split; [exact X1|lia].
Qed.
Lemma read_text (trace : bool) (up : url_parser) (r : mock) : text_request r ->
  from_reader trace up (request_text r)
  = if trace && match mr_body r with Some b => negb (utf8_valid b) | None => false end then Panic
    else do ou <- derive_url up (mr_path r) (mr_headers r);
      Done (match ou with Some u => Some (MockReq HTTP_11 (mr_method r) u (mr_path r) (mr_headers r) (mr_body r)) | None => None end).
Proof.
  intros ((Mn & Mt) & (Pn & Pu & Pb) & D & F).
  assert (Mt' : forallb is_tchar (mr_method r) = true). { apply forallb_forall. intros c I. rewrite Forall_forall in Mt. now apply tchar_iff, Mt. }
  assert (Mw : Forall (fun x => is_ascii_ws x = false) (mr_method r)).
  { apply Forall_forall. intros c I. apply tchar_not_ws. now apply (forallb_In _ _ _ Mt'). }
  assert (Ma : all_ascii (mr_method r)). { apply Forall_forall. intros c I. apply tchar_not_ws. now apply (forallb_In _ _ _ Mt'). }
  assert (Pw : Forall (fun x => is_ascii_ws x = false) (mr_path r)).
  { revert Pb. apply Forall_impl. intros c N. destruct (is_ascii_ws c) eqn:E; [|reflexivity]. apply blank_iff in E. contradiction. }
  assert (E : request_text r = (mr_method r ++ $" " ++ mr_path r ++ $" HTTP/1.1") ++ ch_lf :: (List.concat (map header_line (mr_headers r))
    ++ match mr_body r with Some b => ch_lf :: b | None => [] end)).
  { unfold request_text. rewrite <- !app_assoc. reflexivity. }
  rewrite E. unfold from_reader. rewrite read_line_lf.
  - assert (W : split_ascii_whitespace ((mr_method r ++ $" " ++ mr_path r ++ $" HTTP/1.1") ++ [ch_lf]) = [mr_method r; mr_path r; $"HTTP/1.1"]).
    { pose proof (three_words (mr_method r) (mr_path r) $"HTTP/1.1" Mn Pn) as W. rewrite <- !app_assoc. apply W; try assumption; [discriminate|].
      repeat constructor. }
    rewrite W. unfold method_parse, method_ok. destruct (mr_method r) as [|m0 m] eqn:M; [contradiction|]. rewrite <- M in *. rewrite Mt'. cbn [negb andb].
    change (version_parse $"HTTP/1.1") with (Some HTTP_11). cbv iota.
    match goal with |- context [read_headers ?f ?s []] => assert (RH : read_headers f s [] = _) by exact (read_all_headers r (mr_headers r) (mr_body r) _ F D eq_refl) end.
    rewrite RH. clear RH.
    destruct (mr_body r) as [b|]; cbn [andb]; rewrite ?andb_true_r, ?andb_false_r; cbn [andb];
      [destruct (trace && negb (utf8_valid b)); [reflexivity|]|]; now destruct (derive_url up (mr_path r) (mr_headers r)) as [[v|]|].
  - assert (X : Forall (fun c => is_ascii_ws c = false \/ c = " "%char) (mr_method r ++ $" " ++ mr_path r ++ $" HTTP/1.1")).
    { apply Forall_app. split; [revert Mw; apply Forall_impl; tauto|]. apply Forall_app. split; [repeat (constructor; [tauto|]); constructor|].
      apply Forall_app. split; [revert Pw; apply Forall_impl; tauto|]. cbn [s2b list_ascii_of_string]. repeat (constructor; [tauto || (left; reflexivity)|]). constructor. }
    intro I. rewrite Forall_forall in X. apply X in I. destruct I; discriminate.
  - apply utf8_app; [now apply utf8_ascii|]. apply utf8_app; [apply utf8_ascii; repeat constructor|]. apply utf8_app; [exact Pu|apply utf8_ascii; repeat constructor].
Qed.
Lemma loggable_iff (trace : bool) (r : mock) :
  loggable trace r <-> trace && match mr_body r with Some b => negb (utf8_valid b) | None => false end = false.
Proof.
  unfold loggable. destruct trace; cbn [andb]; [|split; [reflexivity|discriminate]]. destruct (mr_body r) as [b|]; [|tauto].
  rewrite negb_false_iff, utf8_valid_iff. tauto.
Qed.
Lemma write_read (trace : bool) (up : url_parser) (r : mock) (t : str) : text_request r -> target_url up (mr_path r) (mr_headers r) (mr_url r) ->
  loggable trace r -> write r = Some t -> from_reader trace up t = Done (Some (as_version HTTP_11 r)).
Proof.
  intros T U L W. apply write_iff in W. destruct W as [_ ->]. apply target_url_iff in U. apply loggable_iff in L.
  rewrite (read_text trace up r T), L, U. reflexivity.
Qed.
Lemma not_loggable_panics (up : url_parser) (r : mock) (b : str) : text_request r -> mr_body r = Some b -> ~ utf8_text b ->
  from_reader true up (request_text r) = Panic.
Proof.
  intros T B N. rewrite read_text by exact T. rewrite B. destruct (utf8_valid b) eqn:V; [|reflexivity]. apply utf8_valid_iff in V. contradiction.
Qed.
(** Writing and reading any other version gives version 1.1. *)
Lemma write_version (v : version) (r : mock) : write (as_version v r) = write r.
Proof. reflexivity. Qed.
Lemma text_shown (r : mock) : text_request r -> shown r.
Proof. intros (_ & _ & _ & F). revert F. apply Forall_impl. intros h (_ & V & _). exact V. Qed.

(** ** What was read *)
Lemma hm_remove_in (m : header_map) (n : str) (x : str * str) : In x (hm_remove m n) -> In x m /\ fst x <> n.
Proof.
  unfold hm_remove. rewrite filter_In. intros [I H]. split; [exact I|]. apply negb_true_iff, str_eqb_neq in H. exact H.
Qed.
Lemma hm_remove_nodup (m : header_map) (n : str) : NoDup (map fst m) -> NoDup (map fst (hm_remove m n)).
Proof.
  induction m as [|[k v] m IH]; cbn [hm_remove filter map fst]; [trivial|]. intro D. inversion D as [|? ? N D']; subst.
  destruct (str_eqb k n); cbn [negb]; [now apply IH|]. cbn [map fst]. constructor; [|now apply IH].
  intro I. apply N. apply in_map_iff in I. destruct I as (x & E & I). apply hm_remove_in in I. destruct I as [I _]. rewrite <- E. now apply in_map.
Qed.
Lemma hm_insert_in (m : header_map) (n v : str) (x : str * str) : In x (hm_insert m n v) -> x = (n, v) \/ In x m.
Proof.
  induction m as [|[k w] m IH]; cbn [hm_insert In].
  - intros [<-|[]]. now left.
  - destruct (str_eqb k n); cbn [In].
    + intros [<-|I]; [now left|]. apply hm_remove_in in I. tauto.
    + intros [<-|I]; [tauto|]. apply IH in I. tauto.
Qed.
Lemma hm_insert_nodup (m : header_map) (n v : str) : NoDup (map fst m) -> NoDup (map fst (hm_insert m n v)).
Proof.
  induction m as [|[k w] m IH]; cbn [hm_insert map fst]; intro D; [repeat constructor; easy|]. inversion D as [|? ? N D']; subst.
  destruct (str_eqb k n) eqn:E; cbn [map fst].
  - constructor; [|now apply hm_remove_nodup]. intro I. apply in_map_iff in I. destruct I as (x & X & I). apply hm_remove_in in I. now destruct I.
  - constructor; [|now apply IH]. intro I. apply in_map_iff in I. destruct I as (x & X & I). apply hm_insert_in in I.
    destruct I as [->|I]; [cbn in X; apply str_eqb_neq in E; congruence|]. apply N. rewrite <- X. now apply in_map.
Qed.
Lemma read_headers_inv (f : nat) (s : str) (acc hs : header_map) (b : bool) (rest : str) : read_headers f s acc = Some (hs, b, rest) ->
  NoDup (map fst acc) -> Forall (fun h => header_name (fst h) /\ no_edge_ws (snd h)) acc ->
  NoDup (map fst hs) /\ Forall (fun h => header_name (fst h) /\ no_edge_ws (snd h)) hs.
Proof.
  revert s acc. induction f as [|f IH]; intros s acc; [discriminate|]. cbn [read_headers].
  destruct (read_line s) as [[[|x line] r]|]; [|discriminate + idtac|discriminate].
  - intros H D F. injection H as <- _ _. auto.
  - destruct (trim (x :: line)) as [|z tr]; [intros H D F; injection H as <- _ _; auto|].
    destruct (split_once ":" (x :: line)) as [[n v]|]; [|discriminate].
    destruct (hname_parse (trim n)) as [n'|] eqn:N; [|discriminate]. destruct (hvalue_parse (trim v)) as [v'|] eqn:V; [|discriminate].
    intros H D F. apply (IH _ _ H); [now apply hm_insert_nodup|]. apply Forall_forall. intros h I. apply hm_insert_in in I.
    destruct I as [->|I]; [|rewrite Forall_forall in F; now apply F]. cbn [fst snd]. split.
    + apply header_name_ok. now apply hname_parse_some in N.
    + unfold hvalue_parse in V. destruct (hvalue_ok (trim v)); [|discriminate]. injection V as <-. apply trim_edges.
Qed.
Lemma read_inv (trace : bool) (up : url_parser) (s : str) (r : mock) : from_reader trace up s = Done (Some r) ->
  target_url up (mr_path r) (mr_headers r) (mr_url r) /\ loggable trace r /\ (shown r -> text_request r).
Proof.
  unfold from_reader. destruct (read_line s) as [[line rest]|] eqn:RL; [|discriminate].
  apply read_line_ok in RL. destruct RL as [_ U].
  pose proof (words_of line [] U (Forall_nil _)) as W. fold (split_ascii_whitespace line) in W.
  destruct (split_ascii_whitespace line) as [|m [|path [|v ws]]]; try discriminate.
  destruct (method_parse m) as [m'|] eqn:M; [|discriminate]. destruct (version_parse v) as [ver|]; [|discriminate].
  destruct (read_headers _ rest []) as [[[hs b] body]|] eqn:H; [|discriminate].
  destruct (trace && b && negb (utf8_valid body)) eqn:T; [discriminate|].
  destruct (derive_url up path hs) as [[u|]|] eqn:D; cbn [obind]; try discriminate. intro E. injection E as <-. cbn [mr_path mr_headers mr_url].
  split; [now apply target_url_iff|]. split.
  - intro Tr. cbn [mr_body]. destruct b; [|exact I]. rewrite Tr in T. cbn [andb] in T. apply negb_false_iff in T. now apply utf8_valid_iff.
  - intro Sh. apply shown_iff in Sh. cbn [mr_headers] in Sh. apply read_headers_inv in H; [|constructor|constructor]. destruct H as [Hd Hf].
    inversion W as [|? ? (M1 & _ & _) W1]; subst. inversion W1 as [|? ? (P1 & P2 & P3) _]; subst.
    unfold method_parse in M. destruct (method_ok m) eqn:Mo; [|discriminate]. injection M as <-. unfold method_ok in Mo. apply andb_prop in Mo. destruct Mo as [_ Mo].
    split; [|split; [|split]]; cbn [mr_method mr_path mr_headers].
    + split; [exact M1|]. apply Forall_forall. intros c I. apply tchar_iff. now apply (forallb_In _ _ _ Mo).
    + split; [exact P1|]. split; [exact P2|]. revert P3. apply Forall_impl. intros c C B. apply blank_iff in B. congruence.
    + exact Hd.
    + apply Forall_forall. intros h I. rewrite Forall_forall in Hf, Sh. destruct (Hf h I) as [H1 H2]. split; [exact H1|]. apply edges_plain; [now apply Sh|exact H2].
Qed.
Lemma read_write_read (trace : bool) (up : url_parser) (s t : str) (r : mock) : from_reader trace up s = Done (Some r) ->
  write r = Some t -> from_reader trace up t = Done (Some (as_version HTTP_11 r)).
Proof.
  intros R W. destruct (read_inv trace up s r R) as (U & L & T). apply (write_read trace up r t); try assumption. apply T. now apply write_iff in W.
Qed.
(** Words, as a relation. *)
Lemma ws_skip (b s : str) : Forall ascii_blank b -> split_ws_aux (b ++ s) [] = split_ws_aux s [].
Proof. induction 1 as [|c b C _ IH]; [reflexivity|]. apply blank_iff in C. cbn [app split_ws_aux]. now rewrite C. Qed.
Lemma not_blank (w : str) : Forall (fun c => ~ ascii_blank c) w <-> Forall (fun x => is_ascii_ws x = false) w.
Proof. split; apply Forall_impl; intros c H; [|intro B; apply blank_iff in B; congruence]. destruct (is_ascii_ws c) eqn:E; [apply blank_iff in E; contradiction|reflexivity]. Qed.
Lemma ws_last (w cur : str) : Forall (fun x => is_ascii_ws x = false) w -> split_ws_aux w cur = match rev cur ++ w with [] => [] | x => [x] end.
Proof.
  intro F. revert cur. induction F as [|x w X F IH]; intros cur; cbn [split_ws_aux].
  - rewrite app_nil_r. destruct cur as [|y cur]; [reflexivity|]. destruct (rev (y :: cur)) eqn:E; [|reflexivity]. cbn [rev] in E. destruct (rev cur); discriminate.
  - rewrite X, IH. cbn [rev]. now rewrite <- app_assoc.
Qed.
Lemma words_split (s : str) (ws : list str) : wordlist s ws -> split_ascii_whitespace s = ws.
Proof.
  unfold split_ascii_whitespace. induction 1 as [s B|b w B N W|b w c s ws B N W C _ IH].
  - rewrite <- (app_nil_r s). now rewrite ws_skip.
  - rewrite ws_skip by exact B. apply not_blank in W. rewrite ws_last by exact W. cbn [rev app]. now destruct w.
  - rewrite ws_skip by exact B. apply not_blank in W. apply blank_iff in C. rewrite ws_word; auto. cbn [rev app]. now rewrite IH.
Qed.
Lemma words_exist (s cur : str) : Forall (fun x => is_ascii_ws x = false) cur -> wordlist (rev cur ++ s) (split_ws_aux s cur).
Proof.
  revert cur. induction s as [|x s IH]; intros cur F; cbn [split_ws_aux].
  - rewrite app_nil_r. destruct cur as [|y cur]; [apply words_nil; constructor|].
    apply (words_last []); [constructor|cbn [rev]; destruct (rev cur); discriminate|]. apply not_blank. now apply Forall_rev.
  - destruct (is_ascii_ws x) eqn:X.
    + apply blank_iff in X. destruct cur as [|y cur].
      * specialize (IH [] (Forall_nil _)). cbn [rev app] in *. clear F. destruct IH as [s B|b w B N W|b w c s ws B N W C T].
        -- apply words_nil. now constructor.
        -- apply (words_last (x :: b)); [now constructor|exact N|exact W].
        -- apply (words_cons (x :: b)); [now constructor|exact N|exact W|exact C|exact T].
      * apply (words_cons []); [constructor|cbn [rev]; destruct (rev cur); discriminate| |exact X|apply (IH []); constructor].
        apply not_blank. now apply Forall_rev.
    + specialize (IH (x :: cur) (Forall_cons _ X F)). cbn [rev] in IH. now rewrite <- app_assoc in IH.
Qed.
Lemma words_iff (s : str) (ws : list str) : wordlist s ws <-> split_ascii_whitespace s = ws.
Proof. split; [apply words_split|]. intros <-. exact (words_exist s [] (Forall_nil _)). Qed.

(** ** Framing *)
Lemma first_line_iff (s l r : str) : first_line s l r <-> take_line s = (l, r).
Proof.
  split.
  - intros [a b N|a N]; [now apply take_line_lf|]. induction a as [|c a IH]; [reflexivity|]. cbn [take_line].
    destruct (Ascii.eqb_spec c ch_lf) as [->|E]; [exfalso; apply N; now left|]. rewrite IH; [reflexivity|]. intro I. apply N. now right.
  - revert l r. induction s as [|c s IH]; intros l r; cbn [take_line].
    + intro H. injection H as <- <-. apply line_end. intros [].
    + destruct (Ascii.eqb_spec c ch_lf) as [->|E].
      * intro H. injection H as <- <-. exact (line_lf [] s (fun I => I)).
      * destruct (take_line s) as [l' r'] eqn:T. intro H. injection H as <- <-. specialize (IH _ _ eq_refl). inversion IH as [a b N|a N]; subst.
        -- apply (line_lf (c :: a) r'). intros [X|I]; auto.
        -- apply (line_end (c :: l')). intros [X|I]; auto.
Qed.
Lemma read_line_iff (s l r : str) : read_line s = Some (l, r) <-> first_line s l r /\ utf8_text l.
Proof.
  rewrite first_line_iff. unfold read_line. destruct (take_line s) as [l' r']. rewrite <- utf8_valid_iff. destruct (utf8_valid l') eqn:V.
  - split; [intro H; injection H as <- <-; auto|]. intros [H _]. now injection H as <- <-.
  - split; [discriminate|]. intros [H U]. injection H as <- <-. congruence.
Qed.
Lemma white_utf8 (w : str) : white w -> utf8_char w.
Proof.
  intros (n & I & E). exists n. split; [|exact E]. unfold scalar.
  assert (X : forallb (fun n => n <? 0xD800)%N white_points = true) by reflexivity. apply (forallb_In _ _ _ X) in I. lia.
Qed.
Lemma white_text_utf8 (s : str) : white_text s -> utf8_text s.
Proof. intros (l & F & ->). exists l. split; [|reflexivity]. revert F. apply Forall_impl. exact white_utf8. Qed.
Lemma trim_nil_iff (s : str) : trim s = [] <-> white_text s.
Proof.
  rewrite <- trimmed_iff. split.
  - intros ((a & b & A & B & ->) & _). cbn [app]. now apply white_text_app.
  - intro W. split; [|split].
    + exists s, []. split; [exact W|]. split; [exact white_text_nil|]. cbn [app]. now rewrite app_nil_r.
    + intros w x Hw E. apply white_length in Hw. destruct w; [cbn in Hw; lia|discriminate].
    + intros w x Hw E. apply white_length in Hw. destruct x, w; try (cbn in Hw; lia); discriminate.
Qed.
Lemma legal_iff (v : str) : legal_value v <-> hvalue_ok v = true.
Proof.
  unfold legal_value, hvalue_ok. apply forall_iff. intro c. unfold hvalue_byte, code.
  assert (X : c = "009"%char <-> N_of_ascii c = 9%N). { split; [now intros ->|]. intro E. apply code_inv in E. exact E. }
  rewrite X. lia.
Qed.
Lemma header_of_iff (line n v : str) : header_of line n v <->
  exists a b, split_once ":" line = Some (a, b) /\ hname_parse (trim a) = Some n /\ hvalue_parse (trim b) = Some v.
Proof.
  unfold header_of. split.
  - intros (a & b & m & -> & N & T1 & S & T2 & L). exists a, b. apply trimmed_iff in T1, T2. subst m.
    split; [apply split_once_spec; auto|]. split; [now apply spelled_iff|]. unfold hvalue_parse. rewrite T2. apply legal_iff in L. now rewrite L.
  - intros (a & b & S & H1 & H2). apply split_once_spec in S. destruct S as [-> N]. exists a, b, (trim a). split; [reflexivity|]. split; [exact N|].
    split; [apply trimmed_trim|]. split; [now apply spelled_iff|]. unfold hvalue_parse in H2. destruct (hvalue_ok (trim b)) eqn:V; [|discriminate].
    injection H2 as <-. split; [apply trimmed_trim|now apply legal_iff].
Qed.
Definition hm_inserts (m : header_map) (l : list (str * str)) : header_map := fold_left (fun a kv => hm_insert a (fst kv) (snd kv)) l m.
Lemma line_rest (s l r : str) : first_line s l r -> l <> [] -> (List.length r < List.length s)%nat.
Proof. intros [a b _|a _] N; rewrite ?app_length; cbn [List.length]; [lia|]. destruct a; [contradiction|cbn; lia]. Qed.
Lemma header_of_not_white (line n v : str) : header_of line n v -> ~ white_text line /\ line <> [].
Proof.
  intros (a & b & m & -> & _). split; [|destruct a; discriminate]. intros (l & F & E).
  assert (I : In ":"%char (List.concat l)) by (rewrite <- E; apply in_or_app; right; now left). apply in_concat in I. destruct I as (w & Iw & Ic).
  rewrite Forall_forall in F. specialize (F w Iw). apply white_iff in F.
  assert (X : forall c, c = ":"%char -> code c = 58%N) by (intros c ->; reflexivity).
  destruct F as [(x & -> & H)|[(x & y & -> & H)|(x & y & z & -> & H)]]; cbn [In] in Ic.
  - unfold ws1, in_range in H. destruct Ic as [Ic|[]]; apply X in Ic; lia.
  - unfold ws2 in H. destruct Ic as [Ic|[Ic|[]]]; apply X in Ic; lia.
  - unfold ws3, in_range in H. destruct Ic as [Ic|[Ic|[Ic|[]]]]; apply X in Ic; lia.
Qed.
Lemma headers_sound (f : nat) (s : str) (acc hs : header_map) (b : bool) (rest : str) : read_headers f s acc = Some (hs, b, rest) ->
  exists l, header_block s l (if b then Some rest else None) /\ hs = hm_inserts acc l.
Proof.
  revert s acc. induction f as [|f IH]; intros s acc; [discriminate|]. cbn [read_headers].
  destruct (read_line s) as [[line r]|] eqn:R; [|discriminate]. apply read_line_iff in R. destruct R as [R U].
  destruct line as [|x line].
  - intro H. injection H as <- <- <-. exists []. split; [|reflexivity]. inversion R as [a c N E1 E2|a N]; subst; [destruct a; discriminate|constructor].
  - destruct (trim (x :: line)) as [|y t] eqn:T.
    + intro H. injection H as <- <- <-. exists []. split; [|reflexivity]. apply (block_blank s (x :: line)); [exact R|discriminate|now apply trim_nil_iff].
    + destruct (split_once ":" (x :: line)) as [[n v]|] eqn:S; [|discriminate].
      destruct (hname_parse (trim n)) as [n'|] eqn:N; [|discriminate]. destruct (hvalue_parse (trim v)) as [v'|] eqn:V; [|discriminate].
      intro H. apply IH in H. destruct H as (l & B & ->). exists ((n', v') :: l). split; [|reflexivity].
      apply (block_line s (x :: line) r); [exact R|exact U|apply header_of_iff; eauto|exact B].
Qed.
Lemma headers_complete (s : str) (l : list (str * str)) (body : option str) : header_block s l body ->
  forall f acc, (List.length s < f)%nat ->
  exists b rest, read_headers f s acc = Some (hm_inserts acc l, b, rest) /\ body = if b then Some rest else None.
Proof.
  induction 1 as [|s line r R N W|s line r n v hs body R U H B IH]; intros f acc L; (destruct f as [|f]; [lia|]); cbn [read_headers].
  - exists false, []. split; reflexivity.
  - rewrite (proj2 (read_line_iff s line r)) by (split; [exact R|now apply white_text_utf8]).
    apply trim_nil_iff in W. destruct line as [|x line]; [contradiction|]. rewrite W. exists true, r. split; reflexivity.
  - destruct (header_of_not_white _ _ _ H) as [Nw Nn]. rewrite (proj2 (read_line_iff s line r)) by auto.
    assert (Lr := line_rest _ _ _ R Nn). destruct line as [|x line]; [contradiction|].
    destruct (trim (x :: line)) as [|y t] eqn:T; [apply trim_nil_iff in T; contradiction|].
    apply header_of_iff in H. destruct H as (a & b & -> & -> & ->). apply IH. lia.
Qed.
Lemma hm_insert_imap (m : header_map) (n v : str) : NoDup (map fst m) -> hm_insert m n v = imap_insert m n v.
Proof.
  induction m as [|[k w] m IH]; cbn [hm_insert imap_insert map fst]; [reflexivity|]. intro D. inversion D as [|? ? N D']; subst.
  destruct (str_eqb k n) eqn:E; [|now rewrite IH]. apply str_eqb_eq in E. subst k. apply (f_equal (cons (n, v))). unfold hm_remove.
  clear - N. induction m as [|[k w] m IH]; [reflexivity|]. cbn [filter fst]. destruct (str_eqb k n) eqn:E.
  - apply str_eqb_eq in E. subst k. exfalso. apply N. now left.
  - cbn [negb]. f_equal. apply IH. intro I. apply N. now right.
Qed.
Lemma hm_inserts_map_of (l : list (str * str)) (m : header_map) : map_of l m <-> m = hm_inserts [] l.
Proof.
  rewrite map_of_iff. assert (X : forall l acc, NoDup (map fst acc) -> inserts acc l = hm_inserts acc l); [|rewrite X by constructor; reflexivity].
  clear l m. induction l as [|[k v] l IH]; intros acc D; [reflexivity|]. cbn [inserts hm_inserts fold_left fst snd]. fold (inserts (V := str)) (hm_inserts).
  rewrite <- hm_insert_imap by exact D. apply IH. now apply hm_insert_nodup.
Qed.
Lemma version_parse_iff (s : str) (v : version) : version_parse s = Some v <-> s = version_name v.
Proof.
  unfold version_parse. split; [|intros ->; now destruct v].
  repeat (destruct (str_eqb s _) eqn:E; [apply str_eqb_eq in E; intro H; injection H as <-; exact E|clear E]). discriminate.
Qed.
Lemma frames_iff (s : str) (r : mock) : frames s r <-> from_reader false (fun _ => Ok (mr_url r)) s = Done (Some r).
Proof.
  unfold frames, from_reader. split.
  - intros (line & rest & more & hs & L & U & W & M & B & H).
    rewrite (proj2 (read_line_iff s line rest)) by auto. pose proof W as W'. apply words_iff in W. rewrite W.
    assert (Mn : mr_method r <> []) by (inversion W'; assumption).
    assert (E : method_parse (mr_method r) = Some (mr_method r)).
    { unfold method_parse, method_ok. assert (F : forallb is_tchar (mr_method r) = true) by (apply forallb_forall; intros c I; rewrite Forall_forall in M; now apply tchar_iff, M).
      rewrite F. destruct (mr_method r); [contradiction|reflexivity]. }
    rewrite E, (proj2 (version_parse_iff _ _) eq_refl). apply hm_inserts_map_of in H.
    destruct (headers_complete _ _ _ B (Datatypes.S (List.length rest)) [] ltac:(lia)) as (b & body & -> & Eb). cbn [andb derive_url obind].
    rewrite <- H, <- Eb. now destruct r.
  - destruct (read_line s) as [[line rest]|] eqn:L; [|discriminate]. apply read_line_iff in L. destruct L as [L U].
    destruct (split_ascii_whitespace line) as [|m [|path [|v ws]]] eqn:W; try discriminate.
    destruct (method_parse m) as [m'|] eqn:M; [|discriminate]. destruct (version_parse v) as [ver|] eqn:V; [|discriminate].
    destruct (read_headers _ rest []) as [[[hs b] body]|] eqn:H; [|discriminate]. cbn [andb derive_url obind]. intro E. injection E as E.
    apply headers_sound in H. destruct H as (l & B & H). apply version_parse_iff in V. subst v.
    unfold method_parse in M. destruct (method_ok m) eqn:Mo; [|discriminate]. injection M as <-. unfold method_ok in Mo. apply andb_prop in Mo. destruct Mo as [_ Mo].
    exists line, rest, ws, l. rewrite <- E. cbn [mr_method mr_path mr_version mr_body mr_headers]. split; [exact L|]. split; [exact U|]. split; [now apply words_iff|].
    split; [apply Forall_forall; intros c I; apply tchar_iff; now apply (forallb_In _ _ _ Mo)|]. split; [exact B|now apply hm_inserts_map_of].
Qed.
Lemma frames_inv (s : str) (r : mock) : frames s r -> forall trace up, from_reader trace up s
  = if trace && match mr_body r with Some b => negb (utf8_valid b) | None => false end then Panic
    else do ou <- derive_url up (mr_path r) (mr_headers r);
      Done (match ou with Some u => Some (MockReq (mr_version r) (mr_method r) u (mr_path r) (mr_headers r) (mr_body r)) | None => None end).
Proof.
  intros H trace up. apply frames_iff in H. unfold from_reader in *. destruct (read_line s) as [[line rest]|]; [|discriminate].
  destruct (split_ascii_whitespace line) as [|m [|path [|v ws]]]; try discriminate.
  destruct (method_parse m) as [m'|]; [|discriminate]. destruct (version_parse v) as [ver|]; [|discriminate].
  destruct (read_headers _ rest []) as [[[hs b] body]|]; [|discriminate]. cbn [andb derive_url obind] in H. injection H as H. rewrite <- H.
  cbn [mr_version mr_method mr_path mr_headers mr_body]. destruct b; rewrite ?andb_true_r, ?andb_false_r; reflexivity.
Qed.
Lemma not_frames (s : str) : (forall r, ~ frames s r) -> forall trace up, from_reader trace up s = Done None.
Proof.
  intros H trace up. assert (H' : forall r, from_reader false (fun _ => Ok (mr_url r)) s <> Done (Some r)) by (intros r F; apply (H r); now apply frames_iff).
  clear H. rename H' into H. unfold from_reader in *. destruct (read_line s) as [[line rest]|]; [|reflexivity].
  destruct (split_ascii_whitespace line) as [|m [|path [|v ws]]]; try reflexivity.
  destruct (method_parse m) as [m'|]; [|reflexivity]. destruct (version_parse v) as [ver|]; [|reflexivity].
  destruct (read_headers _ rest []) as [[[hs b] body]|]; [|reflexivity]. exfalso. cbn [andb derive_url obind] in H.
  now apply (H (MockReq ver m' (Url [] false [] None None None [] None None) path hs (if b then Some body else None))).
Qed.
Lemma frames_dec (s : str) : (exists r, frames s r) \/ (forall r, ~ frames s r).
Proof.
  enough (X : (exists r, from_reader false (fun _ => Ok (mr_url r)) s = Done (Some r)) \/ (forall r, from_reader false (fun _ => Ok (mr_url r)) s <> Done (Some r))).
  { destruct X as [[r R]|N]; [left; exists r; now apply frames_iff|right; intros r F; apply frames_iff in F; now apply (N r)]. }
  unfold from_reader. destruct (read_line s) as [[line rest]|]; [|right; discriminate].
  destruct (split_ascii_whitespace line) as [|m [|path [|v ws]]]; try (right; discriminate).
  destruct (method_parse m) as [m'|]; [|right; discriminate]. destruct (version_parse v) as [ver|]; [|right; discriminate].
  destruct (read_headers _ rest []) as [[[hs b] body]|]; [|right; discriminate]. left.
  exists (MockReq ver m' (Url [] false [] None None None [] None None) path hs (if b then Some body else None)). reflexivity.
Qed.
Lemma derive_panic_iff (up : url_parser) (path : str) (hs : header_map) : derive_url up path hs = Panic <->
  up path = Err RelativeUrlWithoutBase
  /\ exists host e, first_value hs $"host" = Some host /\ Forall (fun c => visible c \/ c = ascii_of_nat 9) host
                    /\ up ($"http://" ++ host ++ path) = Err e.
Proof.
  unfold derive_url. change (hm_get hs h_host) with (hm_get hs $"host"). rewrite <- first_value_get. destruct (up path) as [v|[]].
  - split; [discriminate|]. now intros [H _].
  - destruct (first_value hs $"host") as [host|].
    + unfold hvalue_to_str. destruct (hvalue_visible host) eqn:V.
      * destruct (up ($"http://" ++ host ++ path)) as [u|e] eqn:U.
        -- split; [discriminate|]. intros (_ & h & e & H & _ & E). congruence.
        -- split; [|reflexivity]. intros _. split; [reflexivity|]. exists host, e. split; [reflexivity|]. split; [now apply value_iff|exact U].
      * split; [discriminate|]. intros (_ & h & e & H & F & _). apply value_iff in F. congruence.
    + split; [discriminate|]. intros (_ & h & e & H & _). discriminate.
  - split; [discriminate|]. now intros [H _].
Qed.
Lemma read_panics (trace : bool) (up : url_parser) (s : str) : from_reader trace up s = Panic <->
  exists r, frames s r /\ (~ loggable trace r \/
    up (mr_path r) = Err RelativeUrlWithoutBase
    /\ exists host e, first_value (mr_headers r) $"host" = Some host /\ Forall (fun c => visible c \/ c = ascii_of_nat 9) host
                      /\ up ($"http://" ++ host ++ mr_path r) = Err e).
Proof.
  split.
  - intro P. destruct (frames_dec s) as [[r F]|N]; [|rewrite (not_frames s N) in P; discriminate]. exists r. split; [exact F|].
    rewrite (frames_inv s r F) in P. rewrite loggable_iff. destruct (trace && _); [left; discriminate|right].
    apply derive_panic_iff. destruct (derive_url _ _ _) as [[u|]|]; cbn [obind] in P; [discriminate|discriminate|reflexivity].
  - intros (r & F & C). rewrite (frames_inv s r F). rewrite loggable_iff in C. destruct (trace && _); [reflexivity|].
    destruct C as [C|C]; [now contradiction C|]. apply derive_panic_iff in C. rewrite C. reflexivity.
Qed.
Lemma read_accepts (trace : bool) (up : url_parser) (s : str) (r : mock) : from_reader trace up s = Done (Some r) <->
  frames s r /\ loggable trace r /\ target_url up (mr_path r) (mr_headers r) (mr_url r).
Proof.
  rewrite loggable_iff, target_url_iff. split.
  - intro H. destruct (frames_dec s) as [[q F]|N]; [|rewrite (not_frames s N) in H; discriminate].
    pose proof (frames_inv s q F) as I. rewrite (I trace up) in H. destruct (trace && _) eqn:T; [discriminate|].
    destruct (derive_url up (mr_path q) (mr_headers q)) as [[u|]|] eqn:D; cbn [obind] in H; try discriminate. injection H as <-.
    cbn [mr_path mr_headers mr_body mr_url]. split; [|auto]. apply frames_iff. rewrite (I false _). reflexivity.
  - intros (F & L & U). rewrite (frames_inv s r F), L, U. cbn [obind]. now destruct r.
Qed.
(** A checker, for examples. *)
Definition plainb (v : str) : bool :=
  hvalue_visible v && match v with c :: _ => negb (ws1 c) | [] => true end && match rev v with c :: _ => negb (ws1 c) | [] => true end.
Fixpoint nodupb (l : list str) : bool := match l with [] => true | x :: l => negb (existsb (str_eqb x) l) && nodupb l end.
Definition text_requestb (r : mock) : bool :=
  method_ok (mr_method r)
  && (match mr_path r with [] => false | _ => true end && utf8_valid (mr_path r) && forallb (fun c => negb (is_ascii_ws c)) (mr_path r))
  && nodupb (map fst (mr_headers r)) && forallb (fun h => hname_ok (fst h) && plainb (snd h)) (mr_headers r).
Lemma plainb_ok (v : str) : plainb v = true -> plain_value v.
Proof.
  unfold plainb. intro H. apply andb_prop in H. destruct H as [H C]. apply andb_prop in H. destruct H as [V B]. apply edges_plain; [exact V|]. split.
  - intros c x ->. now apply negb_true_iff.
  - intros c x ->. rewrite rev_app_distr in C. now apply negb_true_iff.
Qed.
Lemma nodupb_ok (l : list str) : nodupb l = true -> NoDup l.
Proof.
  induction l as [|x l IH]; cbn [nodupb]; intro H; constructor; apply andb_prop in H; destruct H as [A B]; [|now apply IH].
  intro I. apply negb_true_iff in A. assert (T : existsb (str_eqb x) l = true) by (apply existsb_exists; exists x; split; [exact I|now apply str_eqb_eq]). congruence.
Qed.
Lemma text_requestb_ok (r : mock) : text_requestb r = true -> text_request r.
Proof.
  unfold text_requestb. intro H. apply andb_prop in H. destruct H as [H F]. apply andb_prop in H. destruct H as [H D]. apply andb_prop in H. destruct H as [M P].
  apply andb_prop in P. destruct P as [P Pb]. apply andb_prop in P. destruct P as [Pn Pu]. unfold method_ok in M. apply andb_prop in M. destruct M as [Mn Mt].
  split; [split|split; [split; [|split]|split]].
  - destruct (mr_method r); [discriminate|discriminate].
  - apply Forall_forall. intros c I. apply tchar_iff. now apply (forallb_In _ _ _ Mt).
  - destruct (mr_path r); [discriminate|discriminate].
  - now apply utf8_valid_iff.
  - apply Forall_forall. intros c I B. apply blank_iff in B. pose proof (forallb_In _ _ _ Pb I) as X. cbv beta in X. rewrite B in X. discriminate.
  - now apply nodupb_ok.
  - apply Forall_forall. intros h I. pose proof (forallb_In _ _ _ F I) as X. cbv beta in X. apply andb_prop in X. destruct X as [X1 X2].
    split; [now apply header_name_ok|now apply plainb_ok].
Qed.
