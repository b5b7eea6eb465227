(** Lemmas for C55 on PEM texts. *)
From Verif Require Import SpecPem KeyFacts WhiteFacts MockFacts Base64Facts StrFacts SpecFacts.

Lemma read_until_found (marker todo part seen rest : str) : read_until marker todo part seen (todo ++ rest) = Some (rest, rev seen).
Proof.
  revert part seen. induction todo as [|m todo IH]; intros part seen; [apply read_until_nil|]. cbn [app read_until]. rewrite Ascii.eqb_refl. apply IH.
Qed.
Lemma read_until_pass (marker p : str) (d : ascii) (m part seen : str) (c : ascii) (s : str) : c <> d ->
  read_until marker (p ++ d :: m) part seen (p ++ c :: s) = read_until marker marker [] (c :: rev p ++ part ++ seen) s.
Proof.
  intro N. revert part. induction p as [|x p IH]; intro part.
  - cbn [app read_until rev]. destruct (Ascii.eqb_spec c d) as [E|_]; [contradiction|]. reflexivity.
  - cbn [app read_until]. rewrite Ascii.eqb_refl, IH. cbn [rev]. rewrite <- !app_assoc. reflexivity.
Qed.
Lemma scan_complete (marker s before rest : str) : scan marker s before rest -> forall seen, read_until marker marker [] seen s = Some (rest, rev seen ++ before).
Proof.
  induction 1 as [rest|p d m c s before rest M N _ IH]; intro seen.
  - rewrite read_until_found. now rewrite app_nil_r.
  - rewrite M at 2. rewrite read_until_pass by exact N. rewrite IH. cbn [rev]. rewrite rev_app_distr, app_nil_l, rev_involutive, <- !app_assoc. reflexivity.
Qed.
Lemma scan_sound (marker s : str) : forall todo part seen rest b, marker = rev part ++ todo -> read_until marker todo part seen s = Some (rest, b) ->
  exists before, b = rev seen ++ before /\ scan marker (rev part ++ s) before rest.
Proof.
  induction s as [|c s IH]; intros todo part seen rest b M H.
  - destruct todo as [|m todo]; [|discriminate]. cbn [read_until] in H. injection H as <- <-. exists []. split; [now rewrite app_nil_r|].
    rewrite app_nil_r in M. subst. apply scan_found.
  - destruct todo as [|m todo]; cbn [read_until] in H.
    + injection H as <- <-. exists []. split; [now rewrite app_nil_r|]. rewrite app_nil_r in M. subst. apply scan_found.
    + destruct (Ascii.eqb_spec c m) as [->|N].
      * destruct (IH todo (m :: part) seen rest b) as (before & E & S); [cbn [rev]; rewrite <- app_assoc; exact M|exact H|].
        exists before. split; [exact E|]. cbn [rev] in S. rewrite <- app_assoc in S. exact S.
      * destruct (IH marker [] (c :: part ++ seen) rest b eq_refl H) as (before & E & S). exists (rev part ++ c :: before). split.
        -- rewrite E. cbn [rev]. rewrite rev_app_distr, <- !app_assoc. reflexivity.
        -- apply (scan_pass marker (rev part) m todo c s before rest M N S).
Qed.
Lemma scan_iff (marker s before rest : str) : scan marker s before rest <-> find_marker marker s = Some (rest, before).
Proof.
  split; [intro H; apply (scan_complete _ _ _ _ H [])|]. intro H. destruct (scan_sound marker s marker [] [] rest before eq_refl H) as (b & -> & S). exact S.
Qed.
Lemma pem_ws_iff (c : ascii) : pem_ws c = true <-> pem_blank c.
Proof. unfold pem_ws, pem_blank, code. cbn [In]. lia. Qed.
Lemma skip_iff (s2 s3 : str) : (exists blanks, s2 = blanks ++ s3 /\ Forall pem_blank blanks /\ forall c x, s3 = c :: x -> ~ pem_blank c) <-> drop_while pem_ws s2 = s3.
Proof.
  split.
  - intros (b & -> & B & N). induction B as [|c b C _ IH]; cbn [app drop_while].
    + destruct s3 as [|c x]; [reflexivity|]. cbn [drop_while]. destruct (pem_ws c) eqn:E; [|reflexivity]. apply pem_ws_iff in E. exfalso. exact (N c x eq_refl E).
    + apply pem_ws_iff in C. now rewrite C.
  - intros <-. induction s2 as [|c s IH]; cbn [drop_while]; [exists []; repeat split; [constructor|discriminate]|].
    destruct (pem_ws c) eqn:E.
    + destruct IH as (b & H & B & N). exists (c :: b). split; [cbn; now rewrite H at 1|]. split; [constructor; [now apply pem_ws_iff|exact B]|exact N].
    + exists []. split; [reflexivity|]. split; [constructor|]. intros c' x H K. injection H as <- <-. apply pem_ws_iff in K. congruence.
Qed.
Lemma trim_end_iff (s t : str) : (exists w, s = t ++ w /\ white_text w /\ forall x y, white y -> t <> x ++ y) <-> trim_end s = t.
Proof.
  unfold trim_end. split.
  - intros (w & -> & W & N). rewrite rev_app_distr, trim_start_rev_text by exact W.
    rewrite trim_start_rev_id; [apply rev_involutive|]. intros y x Y. now apply N.
  - intros <-. destruct (trim_end_spec s) as (b & B & E & N). exists b. split; [exact E|]. split; [exact B|]. intros x y Y. now apply N.
Qed.
Lemma split_none (c : ascii) (s : str) : ~ In c s -> split c s = [s].
Proof.
  induction s as [|x s IH]; intro N; [reflexivity|]. cbn [split]. destruct (Ascii.eqb_spec x c) as [->|_]; [exfalso; apply N; now left|].
  rewrite IH by (intro; apply N; now right). reflexivity.
Qed.
Lemma split_cons (c : ascii) (a s : str) : ~ In c a -> split c (a ++ c :: s) = a :: split c s.
Proof.
  induction a as [|x a IH]; intro N; cbn [app split]; [now rewrite Ascii.eqb_refl|].
  destruct (Ascii.eqb_spec x c) as [->|_]; [exfalso; apply N; now left|]. rewrite IH by (intro; apply N; now right). reflexivity.
Qed.
Lemma split_cases (c : ascii) (s : str) : (~ In c s) \/ exists a b, s = a ++ c :: b /\ ~ In c a.
Proof.
  induction s as [|x s IH]; [left; auto|]. destruct (Ascii.eqb_spec x c) as [->|N]; [right; exists [], s; auto|].
  destruct IH as [H|(a & b & -> & H)]; [left|right; exists (x :: a), b; split; [reflexivity|]]; intros [E|I]; contradiction.
Qed.
Lemma unlined_iff (s t : str) : unlined s t <-> List.concat (map trim_end (split ch_lf s)) = t.
Proof.
  split.
  - induction 1 as [line w W N L|line w s t W N L _ IH].
    + rewrite split_none by exact L. cbn [map List.concat]. rewrite app_nil_r. apply trim_end_iff. eauto.
    + rewrite app_assoc, split_cons by exact L. cbn [map List.concat]. rewrite IH. f_equal. apply trim_end_iff. eauto.
  - revert t. induction s as [s IH] using (well_founded_induction (Wf_nat.well_founded_ltof str (@List.length ascii))). unfold Wf_nat.ltof in IH.
    intros t <-. destruct (split_cases ch_lf s) as [N|(a & b & -> & N)].
    + rewrite split_none by exact N. cbn [map List.concat]. rewrite app_nil_r. destruct (proj2 (trim_end_iff s _) eq_refl) as (w & E & W & Nw).
      rewrite E at 1. rewrite E in N at 1. apply unlined_last; assumption.
    + rewrite split_cons by exact N. cbn [map List.concat]. destruct (proj2 (trim_end_iff a _) eq_refl) as (w & E & W & Nw).
      rewrite E in N. rewrite E at 1. rewrite <- app_assoc. apply unlined_line; try assumption. apply IH; [|reflexivity]. rewrite app_length. cbn [List.length]. lia.
Qed.
Lemma no_pad_iff (s : str) : forallb not_pad s = true <-> ~ In "="%char s.
Proof.
  unfold not_pad. induction s as [|c s IH]; cbn [forallb]; [split; [intros _ []|reflexivity]|].
  rewrite andb_true_iff, IH, negb_true_iff. destruct (Ascii.eqb_spec c b64_pad) as [->|N].
  - split; [intros [F _]; discriminate|]. intro F. exfalso. apply F. now left.
  - split; [intros [_ H] [E|I]; [now apply N|now apply H]|]. intro H. split; [reflexivity|]. intro I. apply H. now right.
Qed.
Lemma all_pads (s : str) : forallb (Ascii.eqb b64_pad) s = true -> s = repeat b64_pad (List.length s).
Proof.
  induction s as [|c s IH]; [reflexivity|]. cbn [forallb List.length repeat]. intro H. apply andb_true_iff in H. destruct H as [E H].
  apply Ascii.eqb_eq in E. subst c. now rewrite <- IH.
Qed.
Lemma repeat_pads (k : nat) : forallb (Ascii.eqb b64_pad) (repeat b64_pad k) = true.
Proof. induction k; [reflexivity|assumption]. Qed.
Lemma body_unique (b b' : str) (m n : nat) : forallb not_pad b = true -> forallb not_pad b' = true ->
  b ++ repeat b64_pad m = b' ++ repeat b64_pad n -> b = b' /\ m = n.
Proof.
  intros B B' E. assert (X : forall a k, forallb not_pad a = true -> take_while not_pad (a ++ repeat b64_pad k) = a).
  { intros a k A. apply take_while_app; [exact A|]. destruct k; [exact I|reflexivity]. }
  assert (b = b') as <- by (rewrite <- (X b m B), E; now apply X). split; [reflexivity|]. apply app_inv_head in E.
  rewrite <- (repeat_length b64_pad m), E. apply repeat_length.
Qed.
Lemma loose_iff (t contents : str) : loose_base64 t contents <-> b64_decode_13 t = Some contents.
Proof.
  unfold loose_base64, b64_decode_13. rewrite b64_bits_encode. split.
  - intros (body & m & n & N & -> & E & L). apply no_pad_iff in N. change "="%char with b64_pad in *.
    assert (St : stops not_pad (repeat b64_pad m)) by (destruct m; [exact I|reflexivity]).
    rewrite take_while_app, drop_while_app by assumption. rewrite repeat_pads, repeat_length.
    destruct (b64_shape contents) as (body' & k & E' & F & K). rewrite E in E'. apply body_unique in E'; [|exact N|exact F]. destruct E' as [<- <-].
    assert (C : b64_decode (body ++ repeat b64_pad n) = Some contents) by (rewrite <- E; apply b64_decode_encode).
    destruct K as [[-> M]|[[-> M]|[-> M]]]; rewrite M.
    + assert (m = 0%nat) as -> by lia. exact C.
    + destruct m as [|[|[|m]]]; [exact C|exact C|exact C|lia].
    + destruct m as [|[|m]]; [exact C|exact C|lia].
  - set (body := take_while not_pad t). set (pads := drop_while not_pad t). cbv zeta. set (k := Nat.modulo (List.length body) 4).
    destruct (forallb (Ascii.eqb b64_pad) pads && _) eqn:B; [|discriminate]. apply andb_true_iff in B. destruct B as [P Q]. intro D.
    apply b64_decode_iff in D. exists body, (List.length pads), (match k with 0%nat => 0 | k => 4 - k end)%nat.
    split; [apply no_pad_iff, take_while_all|]. split; [rewrite <- all_pads by exact P; symmetry; apply take_drop|]. split; [symmetry; exact D|].
    assert (k < 4)%nat by (apply Nat.mod_upper_bound; lia). destruct k as [|k]; lia.
Qed.
Lemma pem_reads_iff (text label contents : str) : pem_reads text label contents <-> pem_parse text = Some (label, contents).
Proof.
  unfold pem_parse, pem_captures. split.
  - intros (before & s1 & s2 & blanks & s3 & data & s4 & after & t & H1 & H2 & H3 & H4 & H5 & H6 & H7 & H8 & H9 & H10 & H11 & H12).
    apply scan_iff in H1, H2, H6, H7. apply unlined_iff in H11. apply loose_iff in H12. apply utf8_valid_iff in H9, H10.
    assert (D : drop_while pem_ws s2 = s3) by (apply skip_iff; eauto).
    change pem_begin with $"-----BEGIN ". change pem_dashes with $"-----". change pem_end with $"-----END ".
    rewrite H1, H2, D, H6, H7, H9, H10, str_eqb_refl. destruct label as [|c l]; [contradiction|]. cbn [List.length Nat.eqb negb andb]. rewrite H11, H12. reflexivity.
  - destruct (find_marker pem_begin text) as [[s1 before]|] eqn:E1; [|discriminate].
    destruct (find_marker pem_dashes s1) as [[s2 lab]|] eqn:E2; [|discriminate].
    destruct (find_marker pem_end (drop_while pem_ws s2)) as [[s4 data]|] eqn:E3; [|discriminate].
    destruct (find_marker pem_dashes s4) as [[after lab']|] eqn:E4; [|discriminate].
    destruct (_ && _) eqn:B; [|discriminate]. rewrite !andb_true_iff in B. destruct B as ((((U1 & U2) & U3) & Q) & L).
    apply str_eqb_eq in Q. subst lab'. destruct (b64_decode_13 _) as [cs|] eqn:E5; [|discriminate]. intro H.
    assert (lab = label /\ cs = contents) as [-> ->] by (split; congruence).
    destruct (proj2 (skip_iff s2 _) eq_refl) as (blanks & B1 & B2 & B3).
    exists before, s1, s2, blanks, (drop_while pem_ws s2), data, s4, after, (List.concat (map trim_end (split ch_lf data))).
    split; [now apply scan_iff|]. split; [now apply scan_iff|]. split; [exact B1|]. split; [exact B2|]. split; [exact B3|].
    split; [now apply scan_iff|]. split; [now apply scan_iff|]. split; [intros ->; discriminate L|].
    split; [now apply utf8_valid_iff|]. split; [now apply utf8_valid_iff|]. split; [now apply unlined_iff|now apply loose_iff].
Qed.
Lemma pem_constructors (cy : crypto) (rk : ring_keys) (t : key_type) (text : str) :
  (forall label der, pem_reads text label der ->
     verify_new_pkcs1_pem cy t text = verify_new_pkcs1_der cy t der /\ verify_new_spki_pem cy t text = verify_new_spki_der cy t der
     /\ sign_new_pkcs8_pem cy rk t text = sign_new_pkcs8 cy rk t der /\ sign_new_pkcs1_pem cy rk t text = sign_new_pkcs1 cy rk t der)
  /\ ((forall label der, ~ pem_reads text label der) ->
     verify_new_pkcs1_pem cy t text = None /\ verify_new_spki_pem cy t text = None
     /\ sign_new_pkcs8_pem cy rk t text = None /\ sign_new_pkcs1_pem cy rk t text = None).
Proof.
  unfold verify_new_pkcs1_pem, verify_new_spki_pem, sign_new_pkcs8_pem, sign_new_pkcs1_pem, pem_contents. split.
  - intros label der H. apply pem_reads_iff in H. rewrite H. repeat split.
  - intro N. destruct (pem_parse text) as [[label der]|] eqn:E; [|repeat split]. exfalso. now apply (N label der), pem_reads_iff.
Qed.
Lemma pem_reads_once (text label label' der der' : str) : pem_reads text label der -> pem_reads text label' der' -> label = label' /\ der = der'.
Proof. intros A B. apply pem_reads_iff in A, B. split; congruence. Qed.
Lemma pem_file_reads (text label der : str) : pem_file text label der -> pem_reads text label der.
Proof. intro H. now apply pem_reads_iff, pem_parse_file. Qed.
