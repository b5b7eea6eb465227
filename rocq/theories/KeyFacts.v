(** Lemmas about key files. *)
From Verif Require Import SpecKey StrFacts Base64Facts SpecFacts AlgFacts TrimFacts SpecText MockFacts.
Local Open Scope N_scope.

(** ** PEM *)
Lemma read_until_nil (marker part seen s : str) : read_until marker [] part seen s = Some (s, rev seen).
Proof. now destruct s. Qed.
Lemma read_until_skip (marker seen s post : str) (d : ascii) :
  (forall c, In c s -> c <> d) -> hd_error marker = Some d ->
  read_until marker marker [] seen (s ++ marker ++ post) = Some (post, rev seen ++ s).
Proof.
  intros N H. revert seen. induction s as [|c s IH]; intro seen.
  - cbn [app]. rewrite app_nil_r.
    assert (G : forall todo part, read_until marker todo part seen (todo ++ post) = Some (post, rev seen)).
    { induction todo as [|m t IHt]; intro part; [apply read_until_nil|]. cbn [app read_until]. rewrite Ascii.eqb_refl. apply IHt. }
    apply G.
  - destruct marker as [|m mk] eqn:M; [discriminate|]. injection H as ->. cbn [app read_until].
    assert (E : Ascii.eqb c d = false) by (apply Ascii.eqb_neq, N; now left). rewrite E.
    rewrite (IH (fun x I => N x (or_intror I))). cbn [rev app]. now rewrite <- app_assoc.
Qed.
Lemma find_marker_dashless (marker s post : str) :
  dashless s -> hd_error marker = Some "-"%char -> find_marker marker (s ++ marker ++ post) = Some (post, s).
Proof.
  intros D H. unfold find_marker. apply (read_until_skip marker [] s post "-"%char); [|exact H].
  intros c I ->. now apply D.
Qed.
Lemma drop_while_snoc (f : ascii -> bool) (l : str) (c : ascii) : f c = false -> drop_while f (l ++ [c]) = drop_while f l ++ [c].
Proof.
  intro E. induction l as [|a l IH]; cbn [app drop_while]; [now rewrite E|]. now destruct (f a).
Qed.
Definition b64_byte (c : ascii) : Prop := is_b64_char c = true \/ c = b64_pad.
Lemma b64_byte_facts (c : ascii) : is_b64_char c = true -> code c < 128 /\ ws1 c = false /\ pem_ws c = false /\ c <> "-"%char /\ c <> ch_lf.
Proof.
  assert (X : forallb (fun c => implb (is_b64_char c) ((code c <? 128) && negb (ws1 c) && negb (pem_ws c) && negb (Ascii.eqb c "-") && negb (Ascii.eqb c ch_lf))) all_bytes = true)
    by (vm_compute; reflexivity).
  pose proof (byte_all _ X c) as Y. cbv beta in Y. intro H. rewrite H in Y. cbn [implb] in Y.
  rewrite !andb_true_iff, !negb_true_iff, !Ascii.eqb_neq in Y. destruct Y as ((((A & B) & C) & D) & E). repeat split; try assumption. lia.
Qed.
Lemma wrapped_lines (t s : str) : wrapped t s -> Forall (fun c => is_b64_char c = true) t ->
  all_ascii s /\ dashless s /\ List.concat (map trim_end (split ch_lf s)) = t
  /\ forall p ps, split ch_lf s = p :: ps -> all_ascii p.
Proof.
  induction 1 as [|c t s W IH|t s W IH|t s W IH]; intro F.
  - split; [constructor|]. split; [intros []|]. split; [reflexivity|]. intros p ps E. cbn in E. injection E as <- _. constructor.
  - inversion F as [|? ? Fc Ft]; subst. destruct (IH Ft) as (A & D & E & L). destruct (b64_byte_facts c Fc) as (C1 & C2 & C3 & C4 & C5).
    split; [now constructor|]. split; [intros [X|X]; [now apply C4|now apply D]|].
    cbn [split]. assert (N : Ascii.eqb c ch_lf = false) by now apply Ascii.eqb_neq. rewrite N.
    destruct (split ch_lf s) as [|p ps] eqn:S; [now apply split_nonempty in S|].
    pose proof (L p ps eq_refl) as Ap. split.
    + cbn [map List.concat] in *. rewrite <- E. rewrite app_comm_cons. f_equal.
      unfold trim_end. rewrite !trim_start_rev_ascii by (apply all_ascii_rev; try exact Ap; now constructor).
      cbn [rev]. rewrite drop_while_snoc by exact C2. now rewrite rev_app_distr.
    + intros q qs Q. injection Q as <- _. now constructor.
  - destruct (IH F) as (A & D & E & L). split; [now constructor|]. split; [intros [X|X]; [discriminate|now apply D]|].
    cbn [split]. rewrite Ascii.eqb_refl. split; [exact E|]. intros p ps Q. injection Q as <- _. constructor.
  - destruct (IH F) as (A & D & E & L). split; [repeat constructor; exact A|]. split; [intros [X|[X|X]]; [discriminate|discriminate|now apply D]|].
    cbn [split]. rewrite Ascii.eqb_refl. change (Ascii.eqb ch_cr ch_lf) with false. cbn [map List.concat].
    split; [exact E|]. intros p ps Q. injection Q as <- _. repeat constructor.
Qed.
Lemma wrapped_skip (t s : str) : wrapped t s -> Forall (fun c => is_b64_char c = true) t -> wrapped t (drop_while pem_ws s).
Proof.
  induction 1 as [|c t s W IH|t s W IH|t s W IH]; intro F; cbn [drop_while].
  - constructor.
  - inversion F as [|? ? Fc Ft]; subst. destruct (b64_byte_facts c Fc) as (_ & _ & -> & _). now constructor.
  - change (pem_ws ch_lf) with true. now apply IH.
  - change (pem_ws ch_lf) with true. change (pem_ws ch_cr) with true. now apply IH.
Qed.
Lemma drop_while_app_stop (f : ascii -> bool) (a b : str) : stops f b -> drop_while f (a ++ b) = drop_while f a ++ b.
Proof. intro S. induction a as [|c a IH]; cbn [app drop_while]; [now apply drop_while_id|]. now destruct (f c). Qed.
Lemma b64_shape (x : str) : exists body k, b64_encode x = body ++ repeat b64_pad k /\ forallb not_pad body = true
  /\ (k = 0 /\ Nat.modulo (List.length body) 4 = 0 \/ k = 2 /\ Nat.modulo (List.length body) 4 = 2 \/ k = 1 /\ Nat.modulo (List.length body) 4 = 3)%nat.
Proof.
  assert (NP : forall v, v < 64 -> not_pad (b64_sym v) = true) by (intros v V; unfold not_pad; now rewrite b64_sym_nopad).
  induction x as [| a | a b | a b c l IH] using list_ind3.
  - exists [], 0%nat. repeat split. now left.
  - cbn [b64_encode]. pose proof (code_lt a). eexists [_; _], 2%nat. split; [reflexivity|]. cbn [forallb]. rewrite !NP by lia. split; [reflexivity|]. right. now left.
  - cbn [b64_encode]. pose proof (code_lt a). pose proof (code_lt b). eexists [_; _; _], 1%nat. split; [reflexivity|]. cbn [forallb]. rewrite !NP by lia. split; [reflexivity|]. right. now right.
  - cbn [b64_encode]. pose proof (code_lt a). pose proof (code_lt b). pose proof (code_lt c).
    destruct IH as (body & k & E & F & K). rewrite E.
    eexists (_ :: _ :: _ :: _ :: body), k. split; [reflexivity|]. cbn [forallb]. rewrite !NP by lia. split; [exact F|].
    cbn [List.length]. replace (S (S (S (S (List.length body))))) with (List.length body + 1 * 4)%nat by lia. rewrite Nat.mod_add by lia. exact K.
Qed.
Lemma b64_decode_13_encode (x : str) : b64_decode_13 (b64_encode x) = Some x.
Proof.
  destruct (b64_shape x) as (body & k & E & F & K). unfold b64_decode_13.
  assert (St : stops not_pad (repeat b64_pad k)) by (destruct k; [exact I|reflexivity]).
  rewrite E, take_while_app, drop_while_app by assumption.
  assert (P : forallb (Ascii.eqb b64_pad) (repeat b64_pad k) = true) by (clear; induction k; [reflexivity|assumption]).
  rewrite P, repeat_length.
  destruct K as [[-> M]|[[-> M]|[-> M]]]; rewrite M; cbn [Nat.eqb Nat.leb Nat.add orb andb Nat.sub]; rewrite <- E; apply b64_decode_encode.
Qed.
Lemma b64_bits_chars (x : str) : Forall (fun c => is_b64_char c = true) (b64_bits x).
Proof.
  rewrite b64_bits_encode. pose proof (b64_encode_chars x) as H. apply Forall_forall. intros c I.
  now apply (forallb_In _ _ _ (proj1 H)).
Qed.
Lemma utf8_valid_ascii (s : str) : all_ascii s -> utf8_valid s = true.
Proof. intro A. apply utf8_valid_iff. now apply utf8_ascii. Qed.
Lemma pem_parse_file (text label contents : str) : pem_file text label contents -> pem_parse text = Some (label, contents).
Proof.
  intros (pre & data & post & -> & Dp & Dl & Nl & Al & W). unfold pem_parse, pem_captures.
  change ($"-----BEGIN ") with pem_begin. change ($"-----END ") with pem_end. change ($"-----") with pem_dashes.
  rewrite find_marker_dashless by (assumption || reflexivity).
  rewrite find_marker_dashless by (assumption || reflexivity).
  rewrite drop_while_app_stop by reflexivity.
  pose proof (wrapped_skip _ _ W (b64_bits_chars contents)) as W'.
  destruct (wrapped_lines _ _ W' (b64_bits_chars contents)) as (A & D & E & _).
  rewrite find_marker_dashless by (assumption || reflexivity).
  rewrite find_marker_dashless by (assumption || reflexivity).
  rewrite !utf8_valid_ascii by assumption. rewrite str_eqb_refl.
  assert (L : Nat.eqb (List.length label) 0 = false) by (destruct label; [contradiction|reflexivity]). rewrite L. cbn [andb negb].
  rewrite E, b64_bits_encode, b64_decode_13_encode. reflexivity.
Qed.

(** What is read was there. *)
Lemma read_until_sound (marker todo part seen s rest before : str) : marker = rev part ++ todo ->
  read_until marker todo part seen s = Some (rest, before) -> rev seen ++ rev part ++ s = before ++ marker ++ rest.
Proof.
  revert todo part seen. induction s as [|c s IH]; intros todo part seen M H.
  - destruct todo as [|m todo]; [|discriminate]. cbn [read_until] in H. injection H as <- <-. subst. now rewrite !app_nil_r.
  - destruct todo as [|m todo]; cbn [read_until] in H.
    + injection H as <- <-. subst. now rewrite app_nil_r.
    + destruct (Ascii.eqb c m) eqn:E.
      * apply Ascii.eqb_eq in E. subst m. apply IH in H; [|cbn [rev]; rewrite <- app_assoc; exact M].
        rewrite <- H. cbn [rev]. now rewrite <- !app_assoc.
      * apply IH in H; [|reflexivity]. rewrite <- H. cbn [rev app]. rewrite rev_app_distr, <- !app_assoc. reflexivity.
Qed.
Lemma find_marker_sound (marker s rest before : str) : find_marker marker s = Some (rest, before) -> s = before ++ marker ++ rest.
Proof. intro H. apply read_until_sound in H; [exact H|reflexivity]. Qed.
Lemma pem_parse_sound (text label contents : str) : pem_parse text = Some (label, contents) ->
  label <> [] /\ exists pre data post,
    text = pre ++ $"-----BEGIN " ++ label ++ $"-----" ++ data ++ $"-----END " ++ label ++ $"-----" ++ post.
Proof.
  unfold pem_parse, pem_captures. destruct (find_marker pem_begin text) as [[s1 pre]|] eqn:E1; [|discriminate].
  destruct (find_marker pem_dashes s1) as [[s2 lab]|] eqn:E2; [|discriminate].
  destruct (find_marker pem_end (drop_while pem_ws s2)) as [[s3 data]|] eqn:E3; [|discriminate].
  destruct (find_marker pem_dashes s3) as [[post lab']|] eqn:E4; [|discriminate].
  destruct (_ && str_eqb lab lab' && _) eqn:B; [|discriminate]. rewrite !andb_true_iff in B. destruct B as ((_ & B) & L).
  apply str_eqb_eq in B. subst lab'. destruct (b64_decode_13 _) as [cs|]; [|discriminate]. intro H. assert (lab = label) by congruence. subst lab.
  split; [intros ->; discriminate L|].
  apply find_marker_sound in E1, E2, E3, E4. exists pre, (take_while pem_ws s2 ++ data), post.
  change ($"-----BEGIN ") with pem_begin. change ($"-----END ") with pem_end. change ($"-----") with pem_dashes.
  rewrite E1, E2. rewrite <- (take_drop pem_ws s2) at 1. rewrite E3, E4. now rewrite <- !app_assoc.
Qed.

(** ** DER *)
Lemma be_value_acc (s : str) (a : N) : fold_left (fun a c => 256 * a + code c) s a = a * 256 ^ N.of_nat (List.length s) + big_endian s.
Proof.
  revert a. induction s as [|c s IH]; intro a; [cbn; lia|].
  cbn [fold_left big_endian List.length]. rewrite IH, Nat2N.inj_succ, N.pow_succ_r'. lia.
Qed.
Lemma be_value_spec (s : str) : be_value s = big_endian s.
Proof. unfold be_value. rewrite be_value_acc. lia. Qed.
Lemma big_endian_lt (s : str) : big_endian s < 256 ^ N.of_nat (List.length s).
Proof.
  induction s as [|c s IH]; [cbn; lia|]. cbn [big_endian List.length]. rewrite Nat2N.inj_succ, N.pow_succ_r'. pose proof (code_lt c). nia.
Qed.
Lemma big_endian_min (b : ascii) (s : str) : 256 ^ N.of_nat (List.length s) <= big_endian (b :: s) <-> code b <> 0.
Proof.
  cbn [big_endian]. pose proof (big_endian_lt s). split; [intros H' E; rewrite E in H'; lia|]. intro. nia.
Qed.
Lemma der_length_iff (s r : str) (n : N) : der_length s = Some (n, r) <-> exists l, length_bytes n l /\ s = l ++ r.
Proof.
  split.
  - unfold der_length. destruct s as [|b s]; [discriminate|]. destruct (N.ltb_spec (code b) 128) as [L|L].
    + intro H. injection H as <- <-. exists [b]. split; [|reflexivity]. rewrite <- (of_code b) at 2. now constructor.
    + set (k := N.to_nat (code b - 128)). destruct (_ && _ && _ && _) eqn:B; [|discriminate]. intro H.
      assert (n = be_value (firstn k s)) by congruence. assert (r = skipn k s) by congruence. subst n r. clear H.
      rewrite !andb_true_iff in B. destruct B as (((((B1 & B2) & B3) & B4) & B5) & B6).
      apply Nat.leb_le in B1, B2, B3. apply N.leb_le in B4, B5, B6.
      rewrite be_value_spec in *. exists (b :: firstn k s). split; [|cbn [app]; now rewrite firstn_skipn].
      assert (Lk : List.length (firstn k s) = k) by (apply firstn_length_le; lia).
      destruct (firstn k s) as [|c t] eqn:F; [cbn in Lk; lia|].
      assert (Eb : b = ascii_of_N (128 + N.of_nat (List.length (c :: t)))).
      { rewrite Lk. rewrite <- (of_code b) at 1. f_equal. unfold k. lia. }
      rewrite Eb at 1. constructor; try lia.
      apply (big_endian_min c t). cbn [List.length] in Lk. replace (N.of_nat (List.length t)) with (N.of_nat k - 1) by lia. exact B5.
  - intros (l & H & ->). unfold der_length. destruct H as [H|b t H1 H2 H3 H4].
    + cbn [app]. rewrite code_of by lia. destruct (N.ltb_spec n 128); [reflexivity|lia].
    + cbn [app]. set (k := List.length (b :: t)) in *. assert (1 <= k)%nat by (subst k; cbn; lia).
      rewrite code_of by lia. destruct (N.ltb_spec (128 + N.of_nat k) 128); [lia|].
      replace (N.to_nat (128 + N.of_nat k - 128)) with k by lia.
      change (b :: t ++ r) with ((b :: t) ++ r).
      assert (Ef : firstn k ((b :: t) ++ r) = b :: t) by (subst k; rewrite firstn_app, firstn_all, Nat.sub_diag; cbn [firstn]; now rewrite app_nil_r).
      assert (Es : skipn k ((b :: t) ++ r) = r) by (subst k; rewrite skipn_app, skipn_all, Nat.sub_diag; reflexivity).
      rewrite Ef, Es, be_value_spec, H4, app_length. fold k.
      assert (M : 256 ^ (N.of_nat k - 1) <= n).
      { rewrite <- H4. replace (N.of_nat k - 1) with (N.of_nat (List.length t)) by (subst k; cbn [List.length]; lia). now apply big_endian_min. }
      replace (Nat.leb 1 k && Nat.leb k 4 && Nat.leb k (k + List.length r) && (128 <=? n) && (256 ^ (N.of_nat k - 1) <=? n) && (n <=? 268435455)) with true; [reflexivity|].
      symmetry. rewrite !andb_true_iff, !Nat.leb_le, !N.leb_le. change (2 ^ 28) with 268435456 in H1. lia.
Qed.
Lemma der_tlv_iff (v r s : str) (t : N) : t < 256 ->
  der_tlv (ascii_of_N t) s = Some (v, r) <-> exists x, tagged t v x /\ s = x ++ r.
Proof.
  intro T. split.
  - unfold der_tlv. destruct s as [|c s]; [discriminate|]. destruct (Ascii.eqb c (ascii_of_N t)) eqn:E; [|discriminate].
    apply Ascii.eqb_eq in E. subst c. destruct (der_length s) as [[n r']|] eqn:D; [|discriminate].
    destruct (N.leb_spec n (N.of_nat (List.length r'))) as [L|L]; [|discriminate]. intro H.
    assert (v = firstn (N.to_nat n) r') by congruence. assert (r = skipn (N.to_nat n) r') by congruence. clear H.
    apply der_length_iff in D. destruct D as (l & D & ->).
    assert (Lv : List.length v = N.to_nat n) by (subst v; apply firstn_length_le; lia).
    exists (ascii_of_N t :: l ++ v). split; [exists l; split; [|reflexivity]; rewrite Lv; now rewrite N2Nat.id|].
    cbn [app]. rewrite <- app_assoc. subst v r. now rewrite firstn_skipn.
  - intros (x & (l & D & ->) & ->). unfold der_tlv. cbn [app]. rewrite Ascii.eqb_refl.
    assert (D' : der_length ((l ++ v) ++ r) = Some (N.of_nat (List.length v), v ++ r)).
    { apply der_length_iff. exists l. split; [exact D|]. now rewrite <- app_assoc. }
    rewrite D', app_length. destruct (N.leb_spec (N.of_nat (List.length v)) (N.of_nat (List.length v + List.length r))); [|lia].
    rewrite Nat2N.id. rewrite firstn_app, firstn_all, Nat.sub_diag, skipn_app, skipn_all, Nat.sub_diag. cbn [firstn skipn app]. now rewrite app_nil_r.
Qed.
Lemma tlv_whole (t : N) (v s : str) : t < 256 -> der_tlv (ascii_of_N t) s = Some (v, []) <-> tagged t v s.
Proof.
  intro T. rewrite (der_tlv_iff v [] s t T). split.
  - intros (x & H & ->). now rewrite app_nil_r.
  - intro H. exists s. split; [exact H|]. now rewrite app_nil_r.
Qed.
Lemma tagged_prefix (t : N) (v w x y a b : str) : t < 256 -> tagged t v x -> tagged t w y -> x ++ a = y ++ b -> v = w /\ a = b.
Proof.
  intros T X Y E.
  assert (D1 : der_tlv (ascii_of_N t) (x ++ a) = Some (v, a)) by (apply der_tlv_iff; eauto).
  assert (D2 : der_tlv (ascii_of_N t) (x ++ a) = Some (w, b)) by (apply der_tlv_iff; eauto).
  split; congruence.
Qed.
Lemma oid_ok_iff (s : str) : oid_ok s = true <-> oid_bytes s.
Proof.
  unfold oid_ok, oid_bytes. destruct (rev s) as [|c s'] eqn:E.
  - split; [discriminate|]. intros (_ & x & d & -> & _). rewrite rev_app_distr in E. discriminate.
  - rewrite andb_true_iff, N.ltb_lt, Nat.leb_le. assert (S : s = rev s' ++ [c]) by (rewrite <- (rev_involutive s), E; reflexivity).
    split; [intros [A B]; split; [exact B|]; now exists (rev s'), c|]. intros (A & x & d & X & Y). split; [|exact A].
    rewrite S in X. apply app_inj_tail in X. now destruct X as [_ ->].
Qed.
Lemma der_any_iff (s : str) : (exists v, der_any s = Some (v, [])) <-> exists tag v, tag < 256 /\ tag mod 32 <> 31 /\ tagged tag v s.
Proof.
  split.
  - intros (v & H). unfold der_any in H. destruct s as [|c s]; [discriminate|]. destruct (N.eqb_spec (code c mod 32) 31) as [E|E]; [discriminate|].
    rewrite <- (of_code c) in H at 1. apply tlv_whole in H; [|apply code_lt]. exists (code c), v. split; [apply code_lt|]. auto.
  - intros (t & v & T & M & H). exists v. unfold der_any. pose proof H as (l & _ & S). rewrite S at 1. rewrite code_of by exact T.
    destruct (N.eqb_spec (t mod 32) 31); [contradiction|]. now apply tlv_whole.
Qed.
Lemma algorithm_ok_iff (s : str) : algorithm_ok s = true <->
  exists oid alg_id params, s = alg_id ++ params /\ tagged 6 oid alg_id /\ oid_bytes oid
    /\ (params = [] \/ exists tag v, tag < 256 /\ tag mod 32 <> 31 /\ tagged tag v params).
Proof.
  unfold algorithm_ok, tag_oid. split.
  - destruct (der_tlv (ascii_of_N 6) s) as [[oid r]|] eqn:D; [|discriminate]. apply der_tlv_iff in D; [|lia]. destruct D as (x & T & ->).
    destruct r as [|c r]; intro H.
    + exists oid, x, []. rewrite <- oid_ok_iff. auto.
    + apply andb_true_iff in H. destruct H as [O H]. exists oid, x, (c :: r). rewrite <- oid_ok_iff. split; [reflexivity|]. split; [exact T|]. split; [exact O|].
      right. apply der_any_iff. destruct (der_any (c :: r)) as [[v [|]]|]; [|discriminate|discriminate]. now exists v.
  - intros (oid & x & params & -> & T & O & P).
    assert (D : der_tlv (ascii_of_N 6) (x ++ params) = Some (oid, params)) by (apply der_tlv_iff; [lia|eauto]).
    rewrite D. apply oid_ok_iff in O. rewrite O. destruct params as [|c r]; [reflexivity|]. destruct P as [P|P]; [discriminate|].
    apply der_any_iff in P. destruct P as [v P]. rewrite P. reflexivity.
Qed.
Lemma bit_string_iff (s key : str) : bit_string s = Some key <-> exists unused, s = ascii_of_N unused :: key /\ unused < 8 /\ (key = [] -> unused = 0).
Proof.
  unfold bit_string. split.
  - destruct s as [|u r]; [discriminate|]. destruct (_ || _) eqn:B; [discriminate|]. intro H. assert (r = key) by congruence. subst r.
    apply orb_false_iff in B. destruct B as [B1 B2]. apply N.ltb_ge in B1. exists (code u). rewrite of_code. split; [reflexivity|]. split; [lia|].
    intros ->. cbn in B2. destruct (N.eqb_spec (code u) 0) as [E|E]; [exact E|discriminate].
  - intros (u & -> & U & Z). rewrite code_of by lia. destruct (N.ltb_spec 7 u); [lia|]. cbn [orb].
    destruct key as [|c key]; [rewrite (Z eq_refl); reflexivity|]. cbn [List.length Nat.eqb]. now rewrite andb_false_r.
Qed.
Lemma spki_key_iff (s key : str) : spki_key s = Some key <-> exists oid, spki oid key s.
Proof.
  unfold spki_key, tag_sequence, tag_bits. split.
  - destruct (der_tlv (ascii_of_N 48) s) as [[body [|]]|] eqn:D1; [|discriminate|discriminate]. apply tlv_whole in D1; [|lia].
    destruct (der_tlv (ascii_of_N 48) body) as [[alg rest]|] eqn:D2; [|discriminate]. apply der_tlv_iff in D2; [|lia]. destruct D2 as (x & T & ->).
    destruct (algorithm_ok alg) eqn:A; [|discriminate]. apply algorithm_ok_iff in A. destruct A as (oid & alg_id & params & -> & A1 & A2 & A3).
    destruct (der_tlv (ascii_of_N 3) rest) as [[bits [|]]|] eqn:D3; [|discriminate|discriminate]. apply tlv_whole in D3; [|lia]. intro B.
    apply bit_string_iff in B. destruct B as (u & -> & B1 & B2). exists oid, u, alg_id, params, (ascii_of_N u :: key), x, rest. auto 12.
  - intros (oid & u & alg_id & params & bits & x & rest & A1 & A2 & A3 & T & -> & B1 & B2 & D3 & D1).
    apply tlv_whole in D1; [|lia]. rewrite D1.
    assert (D2 : der_tlv (ascii_of_N 48) (x ++ rest) = Some (alg_id ++ params, rest)) by (apply der_tlv_iff; [lia|eauto]).
    rewrite D2. assert (A : algorithm_ok (alg_id ++ params) = true) by (apply algorithm_ok_iff; exists oid, alg_id, params; auto).
    rewrite A. apply tlv_whole in D3; [|lia]. rewrite D3. apply bit_string_iff. eauto.
Qed.
Lemma spki_not_pkcs1 (oid key s : str) : spki oid key s -> ~ rsa_public_key s.
Proof.
  intros (u & alg_id & params & bits & x & rest & _ & _ & _ & T & _ & _ & _ & _ & D1) (n & e & m & ex & N & E & D2).
  assert (X : x ++ rest = m ++ ex) by (apply (tagged_prefix 48 _ _ _ _ [] [] ltac:(lia) D1 D2 eq_refl)).
  destruct T as (l & _ & ->). destruct N as (l' & _ & ->). discriminate X.
Qed.

(** ** The constructors *)
Lemma verifier_for_ring (cy : crypto) (t : key_type) (key : str) : verifier_for cy t key (Some (ring_verifier cy t key)).
Proof. exists (ring_verifier cy t key). split; [reflexivity|]. split; [destruct t; constructor|]. destruct t; apply raw_verifies. Qed.
Lemma signer_for_ring (cy : crypto) (t : key_type) (key : str) : signer_for cy t key (Some (ring_signer cy t key)).
Proof. exists (ring_signer cy t key). split; [reflexivity|]. split; [destruct t; constructor|]. destruct t; apply raw_signs. Qed.
Lemma load_spki (cy : crypto) (t : key_type) (text label der oid key : str) : pem_file text label der -> spki oid key der ->
  verifier_for cy t key (verify_new_spki_pem cy t text) /\ verifier_for cy t key (verify_new_spki_der cy t der).
Proof.
  intros F S. assert (K : spki_key der = Some key) by (apply spki_key_iff; eauto).
  unfold verify_new_spki_pem, verify_new_spki_der, pem_contents. rewrite (pem_parse_file _ _ _ F). cbn [option_map snd andThen]. rewrite K.
  split; apply verifier_for_ring.
Qed.
Lemma load_pkcs1 (cy : crypto) (t : key_type) (text label der : str) : pem_file text label der ->
  verifier_for cy t der (verify_new_pkcs1_pem cy t text) /\ verifier_for cy t der (verify_new_pkcs1_der cy t der).
Proof.
  intro F. unfold verify_new_pkcs1_pem, verify_new_pkcs1_der, pem_contents. rewrite (pem_parse_file _ _ _ F). split; apply verifier_for_ring.
Qed.
Lemma load_same (cy : crypto) (t : key_type) (text text' label label' der oid key : str) :
  pem_file text label der -> spki oid key der -> pem_file text' label' key ->
  verify_new_spki_pem cy t text = verify_new_pkcs1_pem cy t text'
  /\ verify_new_spki_der cy t der = verify_new_pkcs1_der cy t key.
Proof.
  intros F S F'. assert (K : spki_key der = Some key) by (apply spki_key_iff; eauto).
  unfold verify_new_spki_pem, verify_new_spki_der, verify_new_pkcs1_pem, verify_new_pkcs1_der, pem_contents.
  rewrite (pem_parse_file _ _ _ F), (pem_parse_file _ _ _ F'). cbn [option_map snd andThen]. rewrite K. split; reflexivity.
Qed.
Lemma load_private (cy : crypto) (rk : ring_keys) (t : key_type) (text label der : str) : pem_file text label der ->
  sign_new_pkcs8_pem cy rk t text = sign_new_pkcs8 cy rk t der /\ sign_new_pkcs1_pem cy rk t text = sign_new_pkcs1 cy rk t der.
Proof.
  intro F. unfold sign_new_pkcs8_pem, sign_new_pkcs8, sign_new_pkcs1_pem, sign_new_pkcs1, pem_contents. rewrite (pem_parse_file _ _ _ F). split; reflexivity.
Qed.
Lemma private_keys (cy : crypto) (rk : ring_keys) (t : key_type) (der key : str) :
  (match t with EcdsaP256Sha256 => rk_ecdsa_pkcs8 rk der = Some key | _ => rk_rsa_pkcs8 rk der = Some key end -> signer_for cy t key (sign_new_pkcs8 cy rk t der))
  /\ (rk_rsa_der rk der = Some key -> signer_for cy t key (sign_new_pkcs1 cy rk t der)).
Proof.
  unfold sign_new_pkcs8, sign_new_pkcs1. split; intro H; [|rewrite H; apply signer_for_ring].
  assert (E : rk_pkcs8 rk t der = Some key) by (destruct t; exact H). rewrite E. apply signer_for_ring.
Qed.
Lemma no_pem (text label contents : str) : pem_parse text = Some (label, contents) -> exists a b, text = a ++ $"-----BEGIN " ++ b.
Proof. intro H. apply pem_parse_sound in H. destruct H as (_ & pre & data & post & ->). eauto. Qed.
Lemma spki_der_exact (cy : crypto) (t : key_type) (b : str) :
  (verify_new_spki_der cy t b <> None <-> exists oid key, spki oid key b).
Proof.
  unfold verify_new_spki_der. destruct (spki_key b) as [key|] eqn:K; cbn [option_map].
  - apply spki_key_iff in K. destruct K as [oid K]. split; [eauto|discriminate].
  - split; [congruence|]. intros (oid & key & S). assert (spki_key b = Some key) by (apply spki_key_iff; eauto). congruence.
Qed.
Lemma spki_pem_needs (cy : crypto) (t : key_type) (text : str) (vf : http_verifier) : verify_new_spki_pem cy t text = Some vf ->
  exists label pre data post der oid key, label <> []
    /\ text = pre ++ $"-----BEGIN " ++ label ++ $"-----" ++ data ++ $"-----END " ++ label ++ $"-----" ++ post
    /\ spki oid key der /\ verifier_for cy t key (Some vf).
Proof.
  unfold verify_new_spki_pem, pem_contents. destruct (pem_parse text) as [[label der]|] eqn:P; [|discriminate]. cbn [option_map snd andThen].
  destruct (spki_key der) as [key|] eqn:K; [|discriminate]. cbn [option_map]. intro H. injection H as <-.
  apply spki_key_iff in K. destruct K as [oid K]. apply pem_parse_sound in P. destruct P as (Nl & pre & data & post & ->).
  exists label, pre, data, post, der, oid, key. split; [exact Nl|]. split; [reflexivity|]. split; [exact K|]. apply verifier_for_ring.
Qed.
Lemma pkcs1_pem_needs (cy : crypto) (t : key_type) (text : str) : verify_new_pkcs1_pem cy t text <> None <-> exists label contents, pem_parse text = Some (label, contents).
Proof.
  unfold verify_new_pkcs1_pem, pem_contents. destruct (pem_parse text) as [[label der]|]; cbn [option_map].
  - split; [eauto|discriminate].
  - split; [congruence|]. intros (l & c & H). discriminate.
Qed.
Lemma wrong_key_accepts_nothing (cy : crypto) (t : key_type) (der msg sig : str) (vf : http_verifier) :
  wants_pkcs1 cy -> t <> EcdsaP256Sha256 -> verifier_for cy t der (Some vf) -> ~ rsa_public_key der -> vf_verify vf msg sig = false.
Proof.
  intros W T (vf' & E & D & V) N. injection E as <-. destruct (vf_verify vf msg sig) eqn:X; [|reflexivity].
  apply V in X. destruct X as (tag & -> & C). exfalso. apply N. apply (W (scheme_of t) der msg tag); [|exact C].
  unfold rsa_scheme. destruct t; try discriminate. now contradiction T.
Qed.
Lemma openssl_pem_rejected (cy : crypto) (ok : openssl_keys) (t : key_type) (text : str) :
  wants_der (ok_pkcs8 ok) -> openssl_new_pkcs8_pem cy ok t ($"-----BEGIN " ++ text) = None.
Proof.
  intro W. unfold openssl_new_pkcs8_pem. destruct (ok_pkcs8 ok _) as [k|] eqn:E; [|reflexivity]. apply W in E. destruct E as [b E]. discriminate E.
Qed.
