(** The parser of Sfv.v accepts exactly the grammar of SpecGrammar.v, with the same
    values. *)
From Verif Require Export SpecGrammar SpecFacts SfvParse.

(** ** Maps *)
Definition inserts {V} (m : imap V) (l : list (str * V)) : imap V :=
  fold_left (fun a kv => imap_insert a (fst kv) (snd kv)) l m.

Lemma value_of_get {A} (p : list (str * A)) (key : str) : value_of key p = imap_get p key.
Proof.
  induction p as [|[k v] p IH]; simpl; [reflexivity|]. destruct (list_eq_dec ascii_dec k key) as [->|N].
  - now rewrite str_eqb_refl.
  - rewrite (proj2 (str_eqb_neq _ _) N). exact IH.
Qed.
Lemma first_occurrences_snoc (l : list str) (k : str) :
  first_occurrences (l ++ [k]) = if existsb (str_eqb k) l then first_occurrences l else first_occurrences l ++ [k].
Proof.
  unfold first_occurrences. rewrite rev_app_distr. cbn [rev app nodup].
  destruct (in_dec (list_eq_dec ascii_dec) k (rev l)) as [H|H].
  - apply in_rev, existsb_str_In in H. now rewrite H.
  - destruct (existsb (str_eqb k) l) eqn:E; [|reflexivity].
    apply existsb_str_In in E. exfalso. apply H. now apply -> in_rev.
Qed.
Lemma first_occurrences_In (l : list str) (k : str) : In k (first_occurrences l) <-> In k l.
Proof. unfold first_occurrences. now rewrite <- in_rev, nodup_In, <- in_rev. Qed.
Lemma first_occurrences_NoDup (l : list str) : NoDup (first_occurrences l).
Proof. unfold first_occurrences. apply NoDup_rev, NoDup_nodup. Qed.

Lemma inserts_map_of {V} (l : list (str * V)) : map_of l (inserts [] l).
Proof.
  induction l as [|[k v] l IH] using rev_ind; [split; reflexivity|]. destruct IH as [K G].
  unfold inserts. rewrite fold_left_app. cbn [fold_left fst snd]. fold (inserts [] l). split.
  - fold (@keys V). unfold keys in *. rewrite map_app. cbn [map fst].
    pose proof (imap_insert_keys (inserts [] l) k v) as E. unfold keys in E. rewrite E, K, first_occurrences_snoc.
    destruct (existsb (str_eqb k) (first_occurrences (map fst l))) eqn:E1,
             (existsb (str_eqb k) (map fst l)) eqn:E2; try reflexivity.
    + apply (proj1 (existsb_str_In _ _)), (proj1 (first_occurrences_In _ _)), (proj2 (existsb_str_In _ _)) in E1. congruence.
    + apply (proj1 (existsb_str_In _ _)), (proj2 (first_occurrences_In _ _)), (proj2 (existsb_str_In _ _)) in E2. congruence.
  - intro x. rewrite rev_app_distr. cbn [rev app value_of]. rewrite value_of_get, imap_get_insert.
    destruct (list_eq_dec ascii_dec k x) as [->|N]; [now rewrite str_eqb_refl|].
    rewrite (proj2 (str_eqb_neq _ _) N), <- value_of_get. apply G.
Qed.
Lemma map_ext_eq {V} (m m' : list (str * V)) : map fst m = map fst m' -> NoDup (map fst m) ->
  (forall k, value_of k m = value_of k m') -> m = m'.
Proof.
  revert m'. induction m as [|[k v] m IH]; intros [|[k' v'] m'] E N G; try discriminate; [reflexivity|].
  cbn [map fst] in E, N. injection E as -> E. inversion N as [|? ? N1 N2]; subst.
  pose proof (G k') as G1. cbn [value_of] in G1. destruct (list_eq_dec ascii_dec k' k') as [_|]; [|congruence].
  injection G1 as ->. f_equal. apply IH; auto. intro x. specialize (G x). cbn [value_of] in G.
  destruct (list_eq_dec ascii_dec k' x) as [->|]; [|exact G].
  assert (Z : forall m0 : list (str * V), ~ In x (map fst m0) -> value_of x m0 = None).
  { induction m0 as [|[y w] m0 IH0]; cbn; [reflexivity|]. intro H.
    destruct (list_eq_dec ascii_dec y x); [tauto|]. apply IH0. tauto. }
  rewrite !Z; [reflexivity| |exact N1]. now rewrite <- E.
Qed.
Lemma map_of_unique {V} (l m m' : list (str * V)) : map_of l m -> map_of l m' -> m = m'.
Proof.
  intros [K G] [K' G']. apply map_ext_eq; [congruence| |intro k; congruence].
  rewrite K. apply first_occurrences_NoDup.
Qed.
Lemma map_of_iff {V} (l m : list (str * V)) : map_of l m <-> m = inserts [] l.
Proof.
  split; [|intros ->; apply inserts_map_of]. intro H. eapply map_of_unique; [exact H|apply inserts_map_of].
Qed.

(** ** Base64 *)
Lemma sextet_val (c : ascii) (l : list bool) :
  sextet_of c l <-> List.length l = 6%nat /\ b64_val c = Some (bits_value l).
Proof.
  unfold sextet_of.
  assert (L : List.length l = 6%nat -> (bits_value l < 64)%N).
  { intro H. do 7 (destruct l as [|? l]; try discriminate). rewrite bits6. unfold nb.
    repeat match goal with |- context [if ?b then _ else _] => destruct b end; reflexivity. }
  split; intros [H E]; (split; [exact H|]); specialize (L H).
  - apply nth_error_nth with (d := "?"%char) in E. rewrite alphabet_sym in E by exact L. subst c.
    now apply b64_val_sym.
  - destruct (b64_sym_val _ _ E) as [_ <-]. rewrite <- alphabet_sym by exact L.
    apply nth_error_nth'. change (List.length alphabet) with 64%nat. lia.
Qed.
Lemma sextet_six (c : ascii) (l : list bool) : sextet_of c l ->
  exists a b d e f g, l = [a; b; d; e; f; g] /\ b64_val c = Some (bits_value l).
Proof.
  rewrite sextet_val. intros [H E]. do 7 (destruct l as [|? l]; try discriminate). repeat eexists. exact E.
Qed.
Lemma sextet_ex (c : ascii) (v : N) : b64_val c = Some v -> exists l, sextet_of c l /\ v = bits_value l.
Proof.
  intro H. destruct (b64_sym_val _ _ H) as [L _].
  exists (map (fun i => N.testbit v i) [5;4;3;2;1;0]%N).
  assert (E : bits_value (map (fun i => N.testbit v i) [5;4;3;2;1;0]%N) = v).
  { assert (X : forallb (fun v => (bits_value (map (fun i => N.testbit v i) [5;4;3;2;1;0]%N) =? v)%N)
                  (map N.of_nat (seq 0 64)) = true) by (vm_compute; reflexivity).
    rewrite forallb_forall in X. apply N.eqb_eq, X. apply in_map_iff. exists (N.to_nat v).
    split; [lia|]. apply in_seq. lia. }
  rewrite sextet_val, E. auto.
Qed.
Lemma byte_bits_inj (a b : ascii) : byte_bits a = byte_bits b -> a = b.
Proof. destruct a, b. cbn. intro H. now injection H as -> -> -> -> -> -> -> ->. Qed.

(** The bytes spelled by two, three and four sextets. *)
Lemma bits_byte1 a1 a2 a3 a4 a5 a6 b1 b2 b3 b4 b5 b6 :
  ascii_of_N (bits_value [a1; a2; a3; a4; a5; a6] * 4 + bits_value [b1; b2; b3; b4; b5; b6] / 16)
  = Ascii b2 b1 a6 a5 a4 a3 a2 a1.
Proof.
  apply byte_eq. rewrite code_bits, !bits6.
  repeat match goal with b : bool |- _ => pose proof (nb_lt b); generalize dependent (nb b); clear b; intros end. lia.
Qed.
Lemma bits_byte2 b1 b2 b3 b4 b5 b6 c1 c2 c3 c4 c5 c6 :
  ascii_of_N ((bits_value [b1; b2; b3; b4; b5; b6] mod 16) * 16 + bits_value [c1; c2; c3; c4; c5; c6] / 4)
  = Ascii c4 c3 c2 c1 b6 b5 b4 b3.
Proof.
  apply byte_eq. rewrite code_bits, !bits6.
  repeat match goal with b : bool |- _ => pose proof (nb_lt b); generalize dependent (nb b); clear b; intros end. lia.
Qed.
Lemma bits_byte3 c1 c2 c3 c4 c5 c6 d1 d2 d3 d4 d5 d6 :
  ascii_of_N ((bits_value [c1; c2; c3; c4; c5; c6] mod 4) * 64 + bits_value [d1; d2; d3; d4; d5; d6])
  = Ascii d6 d5 d4 d3 d2 d1 c6 c5.
Proof.
  apply byte_eq. rewrite code_bits, !bits6.
  repeat match goal with b : bool |- _ => pose proof (nb_lt b); generalize dependent (nb b); clear b; intros end. lia.
Qed.

Lemma val_nopad (c : ascii) (v : N) : b64_val c = Some v -> Ascii.eqb c b64_pad = false.
Proof. intro H. destruct (b64_sym_val _ _ H) as [L <-]. now apply b64_sym_nopad. Qed.
Lemma val_char (c : ascii) (v : N) : b64_val c = Some v -> is_b64_char c = true.
Proof. intro H. destruct (b64_sym_val _ _ H) as [L <-]. now apply b64_sym_char. Qed.

Lemma sfv_decode_sound (t b : str) : sfv_b64_decode t = Some b -> b64_reads t b.
Proof.
  revert b. induction t as [|x|x y|x y z|a b c d t IH] using list_ind4; intros out H; try discriminate.
  - injection H as <-. constructor.
  - cbn [sfv_b64_decode] in H. destruct (b64_quad false a b c d) as [q|] eqn:Q; [|discriminate].
    destruct (sfv_b64_decode t) as [u|]; [|discriminate]. injection H as <-. specialize (IH u eq_refl).
    unfold b64_quad in Q. cbn [andb] in Q.
    destruct (b64_val a) as [w|] eqn:Va; [|discriminate]. destruct (b64_val b) as [x|] eqn:Vb; [|discriminate].
    destruct (sextet_ex _ _ Va) as (la & Sa & ->). destruct (sextet_ex _ _ Vb) as (lb & Sb & ->).
    destruct (sextet_six _ _ Sa) as (? & ? & ? & ? & ? & ? & -> & _).
    destruct (sextet_six _ _ Sb) as (? & ? & ? & ? & ? & ? & -> & _).
    destruct (Ascii.eqb d b64_pad) eqn:Ed.
    + apply Ascii.eqb_eq in Ed. subst d. destruct (Ascii.eqb c b64_pad) eqn:Ec.
      * apply Ascii.eqb_eq in Ec. subst c. injection Q as <-.
        apply (b64_group [a; b] _ _ t u) with (2 := Forall2_cons _ _ Sa (Forall2_cons _ _ Sb (Forall2_nil _)));
          [cbn; lia|reflexivity| |exact IH].
        rewrite bits_byte1. reflexivity.
      * destruct (b64_val c) as [y|] eqn:Vc; [|discriminate].
        destruct (sextet_ex _ _ Vc) as (lc & Sc & ->). destruct (sextet_six _ _ Sc) as (? & ? & ? & ? & ? & ? & -> & _).
        injection Q as <-.
        apply (b64_group [a; b; c] _ _ t u)
          with (2 := Forall2_cons _ _ Sa (Forall2_cons _ _ Sb (Forall2_cons _ _ Sc (Forall2_nil _))));
          [cbn; lia|reflexivity| |exact IH].
        rewrite bits_byte1, bits_byte2. reflexivity.
    + destruct (b64_val c) as [y|] eqn:Vc; [|discriminate]. destruct (b64_val d) as [z|] eqn:Vd; [|discriminate].
      destruct (sextet_ex _ _ Vc) as (lc & Sc & ->). destruct (sextet_six _ _ Sc) as (? & ? & ? & ? & ? & ? & -> & _).
      destruct (sextet_ex _ _ Vd) as (ld & Sd & ->). destruct (sextet_six _ _ Sd) as (? & ? & ? & ? & ? & ? & -> & _).
      injection Q as <-.
      apply (b64_group [a; b; c; d] _ _ t u)
        with (2 := Forall2_cons _ _ Sa (Forall2_cons _ _ Sb (Forall2_cons _ _ Sc (Forall2_cons _ _ Sd (Forall2_nil _)))));
        [cbn; lia|reflexivity| |exact IH].
      unfold quad3. rewrite bits_byte1, bits_byte2, bits_byte3. reflexivity.
Qed.
Lemma b64_reads_spec (t b : str) : b64_reads t b -> sfv_b64_decode t = Some b /\ forallb is_b64_char t = true.
Proof.
  induction 1 as [|syms sixes bytes rest out L F E C R [IH1 IH2]]; [split; reflexivity|].
  destruct F as [|a la syms sixes Sa F]; [cbn in L; lia|].
  destruct F as [|b lb syms sixes Sb F]; [cbn in L; lia|].
  destruct (sextet_six _ _ Sa) as (? & ? & ? & ? & ? & ? & -> & Va).
  destruct (sextet_six _ _ Sb) as (? & ? & ? & ? & ? & ? & -> & Vb).
  pose proof (val_char _ _ Va) as Ca. pose proof (val_char _ _ Vb) as Cb.
  destruct F as [|c lc syms sixes Sc F].
  { destruct bytes as [|u1 [|? ?]]; try discriminate. cbn [List.length Nat.sub repeat app].
    change (is_b64_char "=") with true. cbn [forallb sfv_b64_decode]. rewrite Ca, Cb, IH1, IH2. split; [|reflexivity].
    unfold b64_quad. rewrite Va, Vb. change (Ascii.eqb "=" b64_pad) with true. cbn [andb]. rewrite bits_byte1.
    cbn [app]. repeat f_equal. symmetry. apply byte_bits_inj. cbn [map List.concat app] in C.
    rewrite app_nil_r in C. exact C. }
  destruct (sextet_six _ _ Sc) as (? & ? & ? & ? & ? & ? & -> & Vc).
  pose proof (val_char _ _ Vc) as Cc. pose proof (val_nopad _ _ Vc) as Pc.
  destruct F as [|d ld syms sixes Sd F].
  { destruct bytes as [|u1 [|u2 [|? ?]]]; try discriminate. cbn [List.length Nat.sub repeat app].
    change (is_b64_char "=") with true. cbn [forallb sfv_b64_decode]. rewrite Ca, Cb, Cc, IH1, IH2. split; [|reflexivity].
    unfold b64_quad. rewrite Va, Vb, Pc, Vc. change (Ascii.eqb "=" b64_pad) with true. cbn [andb].
    rewrite bits_byte1, bits_byte2. destruct u1, u2. cbn in C. injection C as -> -> -> -> -> -> -> -> -> -> -> -> -> -> -> ->.
    reflexivity. }
  destruct F as [|]; [|cbn in L; lia].
  destruct (sextet_six _ _ Sd) as (? & ? & ? & ? & ? & ? & -> & Vd).
  pose proof (val_char _ _ Vd) as Cd. pose proof (val_nopad _ _ Vd) as Pd.
  destruct bytes as [|u1 [|u2 [|u3 [|? ?]]]]; try discriminate. cbn [List.length Nat.sub repeat app].
  cbn [forallb sfv_b64_decode]. rewrite Ca, Cb, Cc, Cd, IH1, IH2. split; [|reflexivity].
  unfold b64_quad. rewrite Va, Vb, Pd, Vc, Vd. unfold quad3.
  rewrite bits_byte1, bits_byte2, bits_byte3. destruct u1, u2, u3. cbn in C.
  injection C as -> -> -> -> -> -> -> -> -> -> -> -> -> -> -> -> -> -> -> -> -> -> -> ->.
  reflexivity.
Qed.
Lemma b64_char_facts (c : ascii) : is_b64_char c = true -> Ascii.eqb c ":" = false /\ is_ascii_byte c = true.
Proof.
  assert (E : forallb (fun c => negb (is_b64_char c) || (negb (Ascii.eqb c ":") && is_ascii_byte c)) all_bytes = true)
    by (vm_compute; reflexivity).
  pose proof (byte_all _ E c) as H. cbv beta in H. intro D. rewrite D in H. simpl in H.
  apply andb_true_iff in H. now rewrite negb_true_iff in H.
Qed.

(** ** Bare items *)
Lemma parse_string_sound (s t r : str) : parse_string_body s = Some (t, r) ->
  s = escape t ++ ch_quote :: r /\ forallb is_visible t = true.
Proof.
  assert (G : forall n s t r, (List.length s < n)%nat -> parse_string_body s = Some (t, r) ->
     s = escape t ++ ch_quote :: r /\ forallb is_visible t = true).
  { clear. induction n as [|n IH]; intros s t r L H; [lia|]. destruct s as [|c s]; [discriminate|].
    cbn [parse_string_body] in H. cbn [List.length] in L.
    destruct (Ascii.eqb c ch_quote) eqn:Q.
    { injection H as <- <-. apply Ascii.eqb_eq in Q. now subst. }
    destruct (Ascii.eqb c ch_bslash) eqn:B.
    - destruct s as [|d s]; [discriminate|]. destruct (Ascii.eqb d ch_bslash || Ascii.eqb d ch_quote) eqn:D; [|discriminate].
      destruct (parse_string_body s) as [[t' r']|] eqn:P; [|discriminate]. injection H as <- <-.
      apply IH in P; [|cbn [List.length] in L; lia]. destruct P as [-> V]. apply Ascii.eqb_eq in B. subst c.
      cbn [escape forallb]. rewrite D, V. split; [reflexivity|].
      apply orb_true_iff in D. destruct D as [D|D]; apply Ascii.eqb_eq in D; subst d; reflexivity.
    - destruct (is_visible c) eqn:V; [|discriminate].
      destruct (parse_string_body s) as [[t' r']|] eqn:P; [|discriminate]. injection H as <- <-.
      apply IH in P; [|lia]. destruct P as [-> V']. cbn [escape forallb]. rewrite B, Q, V, V'. easy. }
  apply (G (S (List.length s))). lia.
Qed.

Lemma extract_digits_sound (s ip r : str) (fp : option str) : extract_digits s = Some (ip, fp, r) ->
  forallb is_digit ip = true
  /\ match fp with
     | None => s = ip ++ r /\ (List.length ip <= 15)%nat /\ stops is_digit r
     | Some f => s = ip ++ "."%char :: f ++ r /\ forallb is_digit f = true /\ (List.length ip <= 12)%nat
     end.
Proof.
  unfold extract_digits.
  pose proof (take_drop is_digit s) as T. pose proof (take_while_all is_digit s) as D.
  pose proof (drop_while_stops is_digit s) as P.
  set (i := take_while is_digit s) in *. set (d := drop_while is_digit s) in *. clearbody i d. subst s.
  destruct (15 <? N.of_nat (List.length i))%N eqn:L; [discriminate|].
  destruct d as [|c d].
  - intro H. injection H as <- <- <-. split; [exact D|]. split; [reflexivity|]. split; [lia|exact P].
  - destruct (Ascii.eqb c ".") eqn:C.
    + apply Ascii.eqb_eq in C. subst c.
      destruct (12 <? N.of_nat (List.length i))%N eqn:L2; [discriminate|]. cbv zeta.
      pose proof (take_drop is_digit d) as T'. pose proof (take_while_all is_digit d) as D'.
      set (j := take_while is_digit d) in *. set (e := drop_while is_digit d) in *. clearbody j e. subst d.
      destruct (16 <? N.of_nat (List.length i + 1 + List.length j))%N; [discriminate|].
      intro H. injection H as <- <- <-. repeat split; auto. lia.
    + intro H. injection H as <- <- <-. split; [exact D|]. split; [reflexivity|]. split; [lia|exact P].
Qed.

Lemma parse_number_sound (s r : str) (v : bare) : parse_number s = Some (v, r) ->
  exists t, s = t ++ r /\ bare_reads t v.
Proof.
  intro H.
  assert (G : exists neg c t, s = minus neg ++ c :: t /\ is_digit c = true).
  { unfold parse_number in H. destruct s as [|c s]; [discriminate|]. destruct (Ascii.eqb c "-") eqn:E.
    - apply Ascii.eqb_eq in E. subst c. destruct s as [|c s]; [discriminate|].
      destruct (is_digit c) eqn:D; [|discriminate]. exists true, c, s. auto.
    - destruct (is_digit c) eqn:D; [|discriminate]. exists false, c, s. auto. }
  destruct G as (neg & c & t & -> & D).
  change (minus neg) with (if neg then $"-" else []) in H. rewrite parse_number_sign in H by exact D.
  destruct (extract_digits (c :: t)) as [[[ip [fp|]] r']|] eqn:X; [| |discriminate];
    apply extract_digits_sound in X; destruct X as [Di X].
  - destruct X as (E & Df & L). assert (Hip : ip <> []).
    { intros ->. cbn [app] in E. injection E as -> _. discriminate. }
    exists (minus neg ++ ip ++ ["."%char] ++ fp). rewrite E. split.
    { destruct (List.length fp) as [|[|[|[|]]]]; try discriminate; injection H as <- <-;
        now rewrite <- !app_assoc. }
    assert (Lf : (1 <= List.length fp <= 3)%nat /\ v = BDecimal (Dec neg (val_of_dec (ip ++ fp)) (List.length fp))).
    { destruct (List.length fp) as [|[|[|[|]]]]; try discriminate; injection H as <- <-; split; auto; lia. }
    destruct Lf as [Lf ->]. constructor; [|exact Lf|].
    + destruct ip; [congruence|]. cbn [List.length] in *. lia.
    + apply numeral_value_iff. rewrite forallb_app, Di, Df. auto.
  - destruct X as (E & L & P). assert (Hip : ip <> []).
    { intros ->. cbn [app] in E. subst r'. cbn in P. congruence. }
    exists (minus neg ++ ip). cbv zeta in H. rewrite E.
    destruct (_ && _) in H; [|discriminate]. injection H as <- <-. split; [now rewrite <- app_assoc|].
    constructor; [|apply numeral_value_iff; auto]. destruct ip; [congruence|]. cbn [List.length] in *. lia.
Qed.

Lemma key_rep_parts (k : str) : key_rep k <->
  ser_key k = Some k /\ exists c k', k = c :: k' /\ is_key_start c = true.
Proof.
  unfold key_rep. rewrite key_text_iff. split.
  - intros [N E]. split; [exact E|]. apply ser_key_some in E. destruct E as (_ & _ & E). destruct k; [easy|eauto].
  - intros [E (c & k' & -> & _)]. easy.
Qed.
Lemma parse_key_sound (s k r : str) : parse_key s = Some (k, r) -> s = k ++ r /\ key_rep k /\ stops is_key_char r.
Proof.
  intro H. unfold parse_key in H. destruct s as [|c s]; [discriminate|].
  destruct (is_key_start c) eqn:E; [|discriminate].
  assert (k = take_while is_key_char (c :: s) /\ r = drop_while is_key_char (c :: s)) as [-> ->] by (split; congruence).
  rewrite take_drop. split; [reflexivity|]. split; [|apply drop_while_stops].
  apply key_rep_parts. cbn [take_while]. destruct (key_start_char c E) as [-> _].
  split; [|eauto]. unfold ser_key. cbn [forallb]. destruct (key_start_char c E) as [-> _].
  now rewrite take_while_all, E.
Qed.
Lemma parse_key_complete (k r : str) : key_rep k -> stops is_key_char r -> parse_key (k ++ r) = Some (k, r).
Proof. intros [N E] S. apply key_text_iff in E. now apply parse_ser_key. Qed.

Lemma parse_bare_sound (s r : str) (v : bare) : parse_bare_item s = Some (v, r) ->
  exists t, s = t ++ r /\ bare_reads t v.
Proof.
  destruct s as [|c s]; [discriminate|]. unfold parse_bare_item.
  destruct (Ascii.eqb c "?") eqn:C1.
  { apply Ascii.eqb_eq in C1. subst c. unfold parse_bool_body. destruct s as [|d s]; [discriminate|].
    destruct (Ascii.eqb d "1") eqn:D1; [|destruct (Ascii.eqb d "0") eqn:D0; [|discriminate]];
      intro H; injection H as <- <-;
      [apply Ascii.eqb_eq in D1; exists $"?1"; subst d; split; [reflexivity|exact (reads_boolean true)]
      |apply Ascii.eqb_eq in D0; exists $"?0"; subst d; split; [reflexivity|exact (reads_boolean false)]]. }
  destruct (Ascii.eqb c ch_quote) eqn:C2.
  { apply Ascii.eqb_eq in C2. subst c. destruct (parse_string_body s) as [[t r']|] eqn:P; [|discriminate].
    intro H. injection H as <- <-. apply parse_string_sound in P. destruct P as [-> V].
    exists (ch_quote :: escape t ++ [ch_quote]). split; [now rewrite <- app_comm_cons, <- app_assoc|].
    constructor. apply string_text_iff. unfold ser_string. now rewrite V. }
  destruct (Ascii.eqb c ":") eqn:C3.
  { apply Ascii.eqb_eq in C3. subst c. destruct (parse_byteseq_body s) as [[t r']|] eqn:P; [|discriminate].
    intro H. injection H as <- <-. unfold parse_byteseq_body in P.
    destruct (split_once ":" s) as [[a b]|] eqn:Sp; [|discriminate]. apply split_once_spec in Sp. destruct Sp as [-> _].
    destruct (forallb is_b64_char a); [|discriminate]. destruct (sfv_b64_decode a) as [u|] eqn:U; [|discriminate].
    injection P as <- <-. exists ([":"%char] ++ a ++ [":"%char]). split; [now rewrite <- !app_assoc|].
    constructor. now apply sfv_decode_sound. }
  destruct (is_token_start c) eqn:C4.
  { unfold parse_token. rewrite C4. intro H.
    assert (v = BToken (take_while is_token_char (c :: s)) /\ r = drop_while is_token_char (c :: s)) as [-> ->]
      by (split; congruence).
    exists (take_while is_token_char (c :: s)). split; [symmetry; apply take_drop|].
    destruct (token_start_facts c C4) as (_ & _ & _ & T). constructor.
    - cbn [take_while]. now rewrite T.
    - apply token_text_iff. unfold ser_token. rewrite take_while_all. cbn [take_while]. now rewrite T, C4. }
  destruct (Ascii.eqb c "-" || is_digit c); [|discriminate]. apply parse_number_sound.
Qed.

Lemma bare_reads_spec (t : str) (v : bare) : bare_reads t v ->
  (forall r, follows r -> parse_bare_item (t ++ r) = Some (v, r)) /\ is_ascii t = true.
Proof.
  destruct 1 as [neg ds n L V|neg ip fp n Li Lf V|s t V|s N V|t b V|x].
  - apply numeral_value_iff in V. destruct V as [D ->]. split.
    + intros r F. rewrite <- app_assoc. destruct ds as [|c ds]; [cbn in L; lia|].
      assert (Dc : is_digit c = true) by (cbn [forallb] in D; now apply andb_true_iff in D).
      pose proof (extract_int _ r D ltac:(lia) F) as X. cbn [app] in *.
      change (minus neg) with (if neg then $"-" else []).
      rewrite parse_bare_number, parse_number_sign, X by exact Dc. cbv zeta.
      pose proof (val_of_dec_lt _ D) as B.
      assert (B2 : (val_of_dec (c :: ds) < 10 ^ 15)%N).
      { eapply N.lt_le_trans; [exact B|]. apply N.pow_le_mono_r; lia. }
      change (10 ^ 15)%N with 1000000000000000%N in B2. unfold sfv_int_max.
      replace (_ && _) with true; [reflexivity|]. symmetry. destruct neg; lia.
    + rewrite is_ascii_app. apply andb_true_iff. split; [now destruct neg|].
      apply (ascii_of_class is_digit); [vm_compute; reflexivity|exact D].
  - apply numeral_value_iff in V. rewrite forallb_app in V. destruct V as [D ->].
    apply andb_true_iff in D. destruct D as [D D']. split.
    + intros r F. rewrite <- !app_assoc. destruct ip as [|c ip]; [cbn in Li; lia|].
      assert (Dc : is_digit c = true) by (cbn [forallb] in D; now apply andb_true_iff in D).
      pose proof (extract_dec _ _ r D D' ltac:(lia) ltac:(lia) F) as X. cbn [app] in *.
      change (minus neg) with (if neg then $"-" else []).
      rewrite parse_bare_number, parse_number_sign, X by exact Dc.
      destruct (List.length fp) as [|[|[|[|]]]]; try lia; reflexivity.
    + rewrite !is_ascii_app, !andb_true_iff. repeat split; [now destruct neg| |];
        (apply (ascii_of_class is_digit); [vm_compute; reflexivity|assumption]).
  - apply string_text_iff in V. unfold ser_string in V. destruct (forallb is_visible s) eqn:W; [|discriminate].
    injection V as <-. split.
    + intros r _. cbn [app]. unfold parse_bare_item. change (Ascii.eqb ch_quote "?") with false.
      change (Ascii.eqb ch_quote ch_quote) with true. cbv iota. rewrite <- app_assoc. cbn [app].
      now rewrite parse_string_escape.
    + rewrite is_ascii_cons, is_ascii_app. apply andb_true_iff. split; [reflexivity|]. apply andb_true_iff.
      split; [|reflexivity].
      clear - W. induction s as [|c s IH]; [reflexivity|]. cbn [forallb] in W. apply andb_true_iff in W.
      destruct W as [W1 W2]. specialize (IH W2).
      assert (A : is_ascii_byte c = true).
      { assert (X : forallb (fun c => negb (is_visible c) || is_ascii_byte c) all_bytes = true) by (vm_compute; reflexivity).
        pose proof (byte_all _ X c) as Y. cbv beta in Y. now rewrite W1 in Y. }
      cbn [escape]. destruct (_ || _); rewrite !is_ascii_cons, A, IH; reflexivity.
  - apply token_text_iff in V. split.
    + intros r F. apply (parse_ser_bare (BToken s) s r V); [congruence|exact F].
    + unfold ser_token in V. destruct (_ && _) eqn:E; [|discriminate]. apply andb_true_iff in E.
      apply (ascii_of_class is_token_char); [vm_compute; reflexivity|tauto].
  - apply b64_reads_spec in V. destruct V as [V W]. split.
    + intros r _. rewrite <- !app_assoc. cbn [app]. unfold parse_bare_item.
      change (Ascii.eqb ":" "?") with false. change (Ascii.eqb ":" ch_quote) with false.
      change (Ascii.eqb ":" ":") with true. cbv iota. unfold parse_byteseq_body.
      replace (split_once ":" (t ++ ":"%char :: r)) with (Some (t, r)).
      * now rewrite W, V.
      * symmetry. apply split_once_spec. split; [reflexivity|]. intro In.
        apply (forallb_In _ _ _ W) in In. discriminate.
    + rewrite !is_ascii_app. apply (ascii_of_class is_b64_char) in W; [|vm_compute; reflexivity]. now rewrite W.
  - split; [|now destruct x]. intros r _. now destruct x.
Qed.
Lemma bare_reads_head (t : str) (v : bare) : bare_reads t v -> exists c t', t = c :: t' /\ bare_head c = true.
Proof.
  intro H. apply bare_reads_spec in H. destruct H as [H _]. specialize (H [] I).
  rewrite app_nil_r in H. eapply parse_bare_head. exact H.
Qed.

(** ** Parameters *)
Lemma white_sp (s : str) : s = spaces (List.length (take_while is_sp s)) ++ skip_sp s.
Proof.
  rewrite <- (take_drop is_sp s) at 1. f_equal. pose proof (take_while_all is_sp s) as H.
  induction (take_while is_sp s) as [|c l IH]; [reflexivity|]. cbn [forallb] in H. apply andb_true_iff in H.
  destruct H as [H1 H2]. unfold is_sp in H1. apply Ascii.eqb_eq in H1. subst c. cbn. now rewrite <- IH at 1 by exact H2.
Qed.
Lemma skip_spaces (n : nat) (s : str) : stops is_sp s -> skip_sp (spaces n ++ s) = s.
Proof.
  intro H. apply drop_while_app; [|exact H]. induction n as [|n IH]; [reflexivity|]. exact IH.
Qed.
Lemma spaces_ascii (n : nat) : is_ascii (spaces n) = true.
Proof. induction n as [|n IH]; [reflexivity|]. exact IH. Qed.
Lemma key_ascii (k : str) : key_rep k -> is_ascii k = true.
Proof.
  intros [_ E]. apply key_text_iff, ser_key_some in E. destruct E as (_ & E & _).
  apply (ascii_of_class is_key_char); [vm_compute; reflexivity|exact E].
Qed.
Lemma key_stops_sp (k s : str) : key_rep k -> stops is_sp (k ++ s).
Proof. intro H. apply key_rep_parts in H. destruct H as [_ (c & k' & -> & H)]. now apply key_start_char. Qed.

Lemma params_loop_sound (f : nat) (s r : str) (acc p : params) : parse_params_loop f s acc = Some (p, r) ->
  exists ts ps, Forall2 parameter_reads ts ps /\ s = List.concat ts ++ r /\ p = inserts acc ps.
Proof.
  revert s acc. induction f as [|f IH]; intros s acc H; [discriminate|]. cbn [parse_params_loop] in H.
  assert (Z : forall s, Some (acc, s) = Some (p, r) ->
     exists ts ps, Forall2 parameter_reads ts ps /\ s = List.concat ts ++ r /\ p = inserts acc ps).
  { intros s0 E. injection E as <- <-. exists [], []. split; [constructor|]. now split. }
  destruct s as [|c s]; [now apply Z|]. destruct (Ascii.eqb c ";") eqn:C; [|now apply Z].
  apply Ascii.eqb_eq in C. subst c. clear Z.
  destruct (parse_key (skip_sp s)) as [[k s2]|] eqn:K; [|discriminate].
  apply parse_key_sound in K. destruct K as (K & Rk & St). rewrite (white_sp s), K. clear K.
  set (n := List.length (take_while is_sp s)). clearbody n.
  assert (Fl : parse_params_loop f s2 (imap_insert acc k (BBoolean true)) = Some (p, r) ->
     exists ts ps, Forall2 parameter_reads ts ps /\ ";"%char :: spaces n ++ k ++ s2 = List.concat ts ++ r
                   /\ p = inserts acc ps).
  { intro E. apply IH in E. destruct E as (ts & ps & F & -> & ->).
    exists (([";"%char] ++ spaces n ++ k) :: ts), ((k, BBoolean true) :: ps).
    split; [constructor; [now constructor|exact F]|]. split; [|reflexivity].
    cbn [List.concat]. now rewrite <- !app_assoc. }
  destruct s2 as [|e s3]; [now apply Fl|]. destruct (Ascii.eqb e "=") eqn:E; [|now apply Fl].
  apply Ascii.eqb_eq in E. subst e. clear Fl.
  destruct (parse_bare_item s3) as [[v s4]|] eqn:V; [|discriminate]. apply parse_bare_sound in V.
  destruct V as (t & -> & V). apply IH in H. destruct H as (ts & ps & F & -> & ->).
  exists (([";"%char] ++ spaces n ++ k ++ ["="%char] ++ t) :: ts), ((k, v) :: ps).
  split; [constructor; [now constructor|exact F]|]. split; [|reflexivity].
  cbn [List.concat]. now rewrite <- !app_assoc.
Qed.
Lemma parameters_follow (ts : list str) (ps : list (str * bare)) (r : str) :
  Forall2 parameter_reads ts ps -> pends r -> follows (List.concat ts ++ r).
Proof.
  intros F H. destruct F as [|t p ts ps P F]; [now apply pends_follows|]. now destruct P.
Qed.
Lemma params_loop_complete (ts : list str) (ps : list (str * bare)) (f : nat) (acc : params) (r : str) :
  Forall2 parameter_reads ts ps -> pends r -> (List.length (List.concat ts) < f)%nat ->
  parse_params_loop f (List.concat ts ++ r) acc = Some (inserts acc ps, r).
Proof.
  intros F R. revert f acc. induction F as [|t p ts ps P F IH]; intros f acc L; (destruct f as [|f]; [lia|]).
  - cbn [List.concat app parse_params_loop]. destruct r as [|c r]; [reflexivity|].
    apply pend_follow in R. destruct R as [_ ->]. reflexivity.
  - pose proof (parameters_follow _ _ r F R) as Fo. cbn [List.concat] in L |- *. rewrite app_length in L.
    destruct P as [n k K|n k t v K V]; rewrite <- !app_assoc; cbn [app parse_params_loop];
      change (Ascii.eqb ";" ";") with true; cbv iota.
    + rewrite skip_spaces by now apply key_stops_sp. destruct (follows_stops _ Fo) as (_ & _ & S3 & S4).
      rewrite parse_key_complete by assumption. specialize (IH f (imap_insert acc k (BBoolean true))).
      cbn [app List.length] in L. destruct (List.concat ts ++ r) as [|e x]; [|destruct S4 as [_ ->]]; apply IH; lia.
    + rewrite skip_spaces by now apply key_stops_sp. rewrite parse_key_complete by (reflexivity || assumption).
      change (Ascii.eqb "=" "=") with true. cbv iota. apply bare_reads_spec in V. destruct V as [V _].
      rewrite V by exact Fo. apply IH. cbn [app List.length] in L. lia.
Qed.
Lemma parse_params_sound (s r : str) (p : params) : parse_params s = Some (p, r) ->
  exists t, s = t ++ r /\ params_reads t p.
Proof.
  intro H. apply params_loop_sound in H. destruct H as (ts & ps & F & -> & ->).
  exists (List.concat ts). split; [reflexivity|]. exists ts, ps. split; [exact F|]. split; [reflexivity|].
  apply inserts_map_of.
Qed.
Lemma params_reads_follows (t r : str) (p : params) : params_reads t p -> pends r -> follows (t ++ r).
Proof. intros (ts & ps & F & -> & _) R. eapply parameters_follow; eassumption. Qed.
Lemma params_reads_spec (t : str) (p : params) : params_reads t p ->
  (forall r, pends r -> parse_params (t ++ r) = Some (p, r)) /\ is_ascii t = true.
Proof.
  intros (ts & ps & F & -> & M). split.
  - intros r R. apply map_of_iff in M. subst p. apply params_loop_complete; auto. rewrite app_length. lia.
  - clear M. induction F as [|t p' ts ps P F IH]; [reflexivity|]. cbn [List.concat]. rewrite is_ascii_app, IH, andb_true_r.
    destruct P as [n k K|n k t v K V]; rewrite !is_ascii_app, spaces_ascii, (key_ascii _ K); [reflexivity|].
    apply bare_reads_spec in V. destruct V as [_ ->]. reflexivity.
Qed.

(** ** Items and inner lists *)
Lemma parse_item_sound (s r : str) (i : item) : parse_item s = Some (i, r) -> exists t, s = t ++ r /\ item_reads t i.
Proof.
  unfold parse_item. destruct (parse_bare_item s) as [[b r1]|] eqn:B; [|discriminate].
  destruct (parse_params r1) as [[p r2]|] eqn:P; [|discriminate]. intro H. injection H as <- <-.
  apply parse_bare_sound in B. destruct B as (t & -> & B). apply parse_params_sound in P. destruct P as (u & -> & P).
  exists (t ++ u). split; [apply app_assoc|]. exists t, u. now repeat split.
Qed.
Lemma item_reads_spec (t : str) (i : item) : item_reads t i ->
  (forall r, pends r -> parse_item (t ++ r) = Some (i, r)) /\ is_ascii t = true.
Proof.
  intros (a & b & -> & A & B). pose proof (bare_reads_spec _ _ A) as [A1 A2].
  pose proof (params_reads_spec _ _ B) as [B1 B2]. rewrite is_ascii_app, A2, B2. split; [|reflexivity].
  intros r R. unfold parse_item. rewrite <- app_assoc, A1 by (eapply params_reads_follows; eassumption).
  rewrite B1 by exact R. now destruct i.
Qed.
Lemma item_reads_head (t : str) (i : item) : item_reads t i -> exists c t', t = c :: t' /\ bare_head c = true.
Proof.
  intros (a & b & -> & A & _). apply bare_reads_head in A. destruct A as (c & a' & -> & H). exists c, (a' ++ b). auto.
Qed.
Lemma items_reads_head (t : str) (l : list item) : items_reads t l ->
  t = [] /\ l = [] \/ exists c t', t = c :: t' /\ (c = " "%char \/ bare_head c = true).
Proof.
  destruct 1 as [n|n t i rest l Ht _ _]; (destruct n as [|n]; [|right; cbn; eauto]).
  - now left.
  - right. apply item_reads_head in Ht. destruct Ht as (c & t' & -> & H). cbn. eauto.
Qed.

Lemma inner_loop_sound (f : nat) (s r : str) (acc : list item) (l : inner_list) :
  parse_inner_loop f s acc = Some (l, r) ->
  exists body its pt, s = body ++ ")"%char :: pt ++ r /\ items_reads body its
    /\ il_items l = rev acc ++ its /\ params_reads pt (il_params l).
Proof.
  revert s acc. induction f as [|f IH]; intros s acc H; [discriminate|]. cbn [parse_inner_loop] in H.
  destruct s as [|x s]; [discriminate|]. rewrite (white_sp (x :: s)).
  set (n := List.length (take_while is_sp (x :: s))). destruct (skip_sp (x :: s)) as [|c s1]; [discriminate|].
  destruct (Ascii.eqb c ")") eqn:C.
  - apply Ascii.eqb_eq in C. subst c. destruct (parse_params s1) as [[p r']|] eqn:P; [|discriminate].
    injection H as <- <-. apply parse_params_sound in P. destruct P as (pt & -> & P).
    exists (spaces n), [], pt. split; [reflexivity|]. split; [constructor|]. split; [symmetry; apply app_nil_r|exact P].
  - destruct (parse_item (c :: s1)) as [[i r1]|] eqn:I; [|discriminate]. apply parse_item_sound in I.
    destruct I as (t & E & I). rewrite E. clear E. destruct r1 as [|d r1]; [discriminate|].
    destruct (is_sp d || Ascii.eqb d ")") eqn:D; [|discriminate].
    apply IH in H. destruct H as (body & its & pt & E & B & L & P). rewrite E.
    exists (spaces n ++ t ++ body), (i :: its), pt. split; [now rewrite <- !app_assoc|]. split; [|split; [|exact P]].
    + constructor; [exact I|exact B|]. destruct (items_reads_head _ _ B) as [[_ ->]|(c' & t' & -> & Hc)]; [now left|].
      right. exists t'. f_equal. cbn [app] in E. injection E as -> _. destruct Hc as [Hc|Hc]; [exact Hc|].
      destruct (bare_head_facts _ Hc) as (F1 & F2 & _). rewrite F1, F2 in D. discriminate.
    + rewrite L. cbn [rev]. now rewrite <- app_assoc.
Qed.
Lemma inner_loop_complete (body : str) (its : list item) (f : nat) (acc : list item) (pt r : str) (p : params) :
  items_reads body its -> params_reads pt p -> pends r -> (List.length body + 1 < f)%nat ->
  parse_inner_loop f (body ++ ")"%char :: pt ++ r) acc = Some (InnerList (rev acc ++ its) p, r).
Proof.
  intros B P R. revert f acc.
  induction B as [n|n t i rest l Ht Hr IH Hs]; intros f acc L; (destruct f as [|f]; [lia|]); cbn [parse_inner_loop].
  - rewrite skip_spaces by reflexivity. change (Ascii.eqb ")" ")") with true. cbv iota.
    pose proof (params_reads_spec _ _ P) as [P1 _]. rewrite P1 by exact R. rewrite app_nil_r. now destruct n.
  - rewrite <- !app_assoc. destruct (item_reads_head _ _ Ht) as (c & t' & Et & Hc).
    destruct (bare_head_facts _ Hc) as (F1 & F2 & _).
    rewrite skip_spaces by (rewrite Et; exact F1).
    assert (Nil : forall (A : Type) (a b : A), match spaces n ++ t ++ rest ++ ")"%char :: pt ++ r with [] => a | _ :: _ => b end = b).
    { intros A a b. rewrite Et. now destruct n. }
    rewrite Nil. clear Nil.
    assert (Pe : pends (rest ++ ")"%char :: pt ++ r) /\ exists d x, rest ++ ")"%char :: pt ++ r = d :: x /\ is_sp d || Ascii.eqb d ")" = true).
    { destruct Hs as [->|[rest' ->]].
      - inversion Hr as [m E|]; subst. destruct m; split; try reflexivity; cbn; eauto.
      - split; [reflexivity|]. cbn. eauto. }
    destruct Pe as [Pe (d & x & Ex & Ed)].
    pose proof (item_reads_spec _ _ Ht) as [I1 _]. specialize (I1 _ Pe).
    rewrite Et in I1 |- *. cbn [app] in I1 |- *. rewrite F2, I1. rewrite Ex at 1. rewrite Ed.
    rewrite IH.
    + cbn [rev]. now rewrite <- app_assoc.
    + rewrite !app_length, Et in L. cbn [List.length] in L. lia.
Qed.
Lemma parse_inner_sound (s r : str) (l : inner_list) : parse_inner_list_body s = Some (l, r) ->
  exists t, "("%char :: s = t ++ r /\ inner_reads t l.
Proof.
  intro H. apply inner_loop_sound in H. destruct H as (body & its & pt & -> & B & L & P). cbn [rev app] in L.
  exists (["("%char] ++ body ++ [")"%char] ++ pt). split; [now rewrite <- !app_assoc|].
  exists body, pt. rewrite L. now repeat split.
Qed.
Lemma items_ascii (t : str) (l : list item) : items_reads t l -> is_ascii t = true.
Proof.
  induction 1 as [n|n t i rest l Ht _ IH _]; [apply spaces_ascii|].
  rewrite !is_ascii_app, spaces_ascii, IH. apply item_reads_spec in Ht. now rewrite (proj2 Ht).
Qed.
Lemma inner_reads_spec (t : str) (l : inner_list) : inner_reads t l ->
  (forall r, pends r -> parse_list_entry (t ++ r) = Some (LEInner l, r)) /\ is_ascii t = true.
Proof.
  intros (body & pt & -> & B & P). split.
  - intros r R. rewrite <- !app_assoc. cbn [app]. unfold parse_list_entry. change (Ascii.eqb "(" "(") with true.
    cbv iota. unfold parse_inner_list_body. rewrite (inner_loop_complete _ _ _ [] _ _ _ B P R).
    + now destruct l.
    + rewrite app_length. cbn [List.length]. lia.
  - rewrite !is_ascii_app, (items_ascii _ _ B). apply params_reads_spec in P. now rewrite (proj2 P).
Qed.

(** ** Dictionaries *)
Lemma white_ows (c : ascii) : white c <-> is_ows c = true.
Proof.
  unfold white, is_ows, is_sp. rewrite orb_true_iff, Ascii.eqb_eq. split; (intros [H|H]; [now left|right]).
  - now subst.
  - apply N.eqb_eq in H. apply code_inj. exact H.
Qed.
Lemma white_all (w : str) : Forall white w <-> forallb is_ows w = true.
Proof. apply forall_iff, white_ows. Qed.
Lemma member_head (t : str) (m : str * list_entry) : member_reads t m ->
  exists c t', t = c :: t' /\ is_key_start c = true.
Proof.
  destruct 1 as [k t p K _|k t i K _|k t l K _]; apply key_rep_parts in K; destruct K as [_ (c & k' & -> & H)]; cbn; eauto.
Qed.
Definition parse_member (s : str) : option (str * list_entry * str) :=
  match parse_key s with
  | None => None
  | Some (k, s1) =>
      match match s1 with
            | e :: s2 => if Ascii.eqb e "=" then parse_list_entry s2
                         else match parse_params s1 with
                              | Some (p, r) => Some (LEItem (Item (BBoolean true) p), r)
                              | None => None
                              end
            | [] => Some (LEItem (Item (BBoolean true) []), [])
            end with
      | None => None
      | Some (m, r) => Some (k, m, r)
      end
  end.
Lemma dict_loop_eq (f : nat) (s : str) (acc : dictionary) : s <> [] ->
  parse_dict_loop (S f) s acc
  = match parse_member s with
    | None => None
    | Some (k, m, s3) =>
        match skip_ows s3 with
        | [] => Some (imap_insert acc k m, [])
        | c :: s4 => if Ascii.eqb c "," then match skip_ows s4 with
                                            | [] => None
                                            | (_ :: _) as s5 => parse_dict_loop f s5 (imap_insert acc k m)
                                            end
                     else None
        end
    end.
Proof.
  intro H. destruct s as [|x s]; [easy|]. cbn [parse_dict_loop]. unfold parse_member.
  destruct (parse_key (x :: s)) as [[k s1]|]; [|reflexivity]. cbv zeta.
  destruct (match s1 with [] => _ | _ :: _ => _ end) as [[m s3]|]; reflexivity.
Qed.
Lemma parse_member_sound (s r k : str) (m : list_entry) : parse_member s = Some (k, m, r) ->
  exists t, s = t ++ r /\ member_reads t (k, m).
Proof.
  unfold parse_member. destruct (parse_key s) as [[k' s1]|] eqn:K; [|discriminate].
  apply parse_key_sound in K. destruct K as (-> & K & St).
  destruct s1 as [|e s2].
  { intro H. injection H as <- <- <-. exists k'. split; [reflexivity|].
    rewrite <- (app_nil_r k') at 1. constructor; [exact K|]. exists [], []. repeat split. constructor. }
  destruct (Ascii.eqb e "=") eqn:E.
  - apply Ascii.eqb_eq in E. subst e. destruct (parse_list_entry s2) as [[m' r']|] eqn:P; [|discriminate].
    intro H. injection H as <- <- <-. unfold parse_list_entry in P. destruct s2 as [|c s3]; [discriminate|].
    destruct (Ascii.eqb c "(") eqn:C.
    + apply Ascii.eqb_eq in C. subst c. destruct (parse_inner_list_body s3) as [[l r1]|] eqn:L; [|discriminate].
      injection P as <- <-. apply parse_inner_sound in L. destruct L as (t & -> & L).
      exists (k' ++ ["="%char] ++ t). split; [now rewrite <- !app_assoc|]. now constructor.
    + destruct (parse_item (c :: s3)) as [[i r1]|] eqn:I; [|discriminate]. injection P as <- <-.
      apply parse_item_sound in I. destruct I as (t & -> & I).
      exists (k' ++ ["="%char] ++ t). split; [now rewrite <- !app_assoc|]. now constructor.
  - destruct (parse_params (e :: s2)) as [[p r']|] eqn:P; [|discriminate]. intro H. injection H as <- <- <-.
    apply parse_params_sound in P. destruct P as (t & -> & P). exists (k' ++ t). split; [apply app_assoc|].
    now constructor.
Qed.
Lemma member_reads_spec (t : str) (m : str * list_entry) : member_reads t m ->
  (forall r, pends r -> parse_member (t ++ r) = Some (fst m, snd m, r)) /\ is_ascii t = true.
Proof.
  destruct 1 as [k t p K P|k t i K P|k t l K P]; cbn [fst snd]; unfold parse_member.
  - pose proof (params_reads_spec _ _ P) as [P1 P2]. rewrite is_ascii_app, (key_ascii _ K), P2. split; [|reflexivity].
    intros r R. pose proof (params_reads_follows _ _ _ P R) as Fo. destruct (follows_stops _ Fo) as (_ & _ & S3 & S4).
    specialize (P1 r R). rewrite <- app_assoc, parse_key_complete by assumption.
    destruct (t ++ r) as [|e x] eqn:E.
    + apply app_eq_nil in E. destruct E as [-> ->]. destruct P as (ts & ps & F & E & M).
      apply map_of_iff in M. subst p.
      destruct F as [|u q ts ps Q F]; [reflexivity|]. destruct Q; discriminate.
    + destruct S4 as [_ ->]. now rewrite P1.
  - pose proof (item_reads_spec _ _ P) as [P1 P2]. rewrite !is_ascii_app, (key_ascii _ K), P2. split; [|reflexivity].
    intros r R. rewrite <- !app_assoc, parse_key_complete by (reflexivity || assumption).
    cbn [app]. change (Ascii.eqb "=" "=") with true. cbv iota.
    destruct (item_reads_head _ _ P) as (c & t' & -> & Hc). destruct (bare_head_facts _ Hc) as (_ & _ & F3 & _).
    specialize (P1 r R). cbn [app] in *. unfold parse_list_entry. now rewrite F3, P1.
  - pose proof (inner_reads_spec _ _ P) as [P1 P2]. rewrite !is_ascii_app, (key_ascii _ K), P2. split; [|reflexivity].
    intros r R. rewrite <- !app_assoc, parse_key_complete by (reflexivity || assumption).
    cbn [app]. change (Ascii.eqb "=" "=") with true. cbv iota. now rewrite P1.
Qed.

Lemma dict_loop_sound (f : nat) (s r : str) (acc d : dictionary) : parse_dict_loop f s acc = Some (d, r) ->
  r = [] /\ (s = [] /\ d = acc \/ exists ms, members_read s ms /\ d = inserts acc ms).
Proof.
  revert s acc. induction f as [|f IH]; intros s acc H; [discriminate|].
  destruct (list_eq_dec ascii_dec s []) as [->|N].
  { cbn in H. injection H as <- <-. split; [reflexivity|]. now left. }
  rewrite dict_loop_eq in H by exact N. destruct (parse_member s) as [[[k m] s3]|] eqn:M; [|discriminate].
  apply parse_member_sound in M. destruct M as (t & -> & M). unfold skip_ows in H.
  pose proof (take_drop is_ows s3) as T. pose proof (proj2 (white_all _) (take_while_all is_ows s3)) as W.
  destruct (drop_while is_ows s3) as [|c s4].
  - injection H as <- <-. split; [reflexivity|]. right. exists [(k, m)]. split; [|reflexivity].
    rewrite <- T, app_nil_r. now constructor.
  - destruct (Ascii.eqb c ",") eqn:C; [|discriminate]. apply Ascii.eqb_eq in C. subst c.
    pose proof (take_drop is_ows s4) as T'. pose proof (proj2 (white_all _) (take_while_all is_ows s4)) as W'.
    destruct (drop_while is_ows s4) as [|x s5]; [discriminate|]. apply IH in H. destruct H as [-> H].
    split; [reflexivity|]. right. destruct H as [[H _]|(ms & R & ->)]; [discriminate|].
    exists ((k, m) :: ms). split; [|reflexivity]. rewrite <- T, <- T'.
    change (","%char :: take_while is_ows s4 ++ x :: s5) with ([","%char] ++ take_while is_ows s4 ++ x :: s5).
    now constructor.
Qed.
Lemma white_pends (w r : str) : Forall white w -> pends r -> pends (w ++ r).
Proof. intros [|c w' [-> | ->] _] R; [exact R|reflexivity|reflexivity]. Qed.
Lemma members_head (s : str) (ms : list (str * list_entry)) : members_read s ms ->
  exists c s', s = c :: s' /\ is_key_start c = true.
Proof.
  destruct 1 as [t m w M _|t m w1 w2 rest ms M _ _ _]; apply member_head in M; destruct M as (c & t' & -> & H); cbn; eauto.
Qed.
Lemma key_start_ows (c : ascii) : is_key_start c = true -> is_ows c = false.
Proof.
  assert (E : forallb (fun c => negb (is_key_start c) || negb (is_ows c)) all_bytes = true) by (vm_compute; reflexivity).
  pose proof (byte_all _ E c) as H. cbv beta in H. intro D. rewrite D in H. now apply negb_true_iff in H.
Qed.
Lemma dict_loop_complete (s : str) (ms : list (str * list_entry)) (f : nat) (acc : dictionary) :
  members_read s ms -> (List.length s < f)%nat -> parse_dict_loop f s acc = Some (inserts acc ms, []).
Proof.
  intro M. revert f acc. induction M as [t m w M W|t m w1 w2 rest ms M W1 W2 R IH]; intros f acc L;
    (destruct f as [|f]; [lia|]); destruct (member_head _ _ M) as (c & t' & Et & Hc);
    (rewrite dict_loop_eq by (rewrite Et; discriminate)).
  - pose proof (member_reads_spec _ _ M) as [M1 _].
    rewrite M1 by (rewrite <- (app_nil_r w); now apply white_pends).
    apply white_all in W. unfold skip_ows. rewrite <- (app_nil_r w), drop_while_app by (exact W || exact I).
    reflexivity.
  - pose proof (member_reads_spec _ _ M) as [M1 _]. rewrite M1 by (apply white_pends; [exact W1|reflexivity]).
    apply white_all in W1. apply white_all in W2. unfold skip_ows.
    rewrite drop_while_app by (exact W1 || reflexivity). cbn [app]. change (Ascii.eqb "," ",") with true. cbv iota.
    destruct (members_head _ _ R) as (x & r' & Er & Hx).
    rewrite drop_while_app; [|exact W2|rewrite Er; now apply key_start_ows].
    rewrite Er. cbv iota. rewrite <- Er. rewrite IH; [reflexivity|].
    rewrite !app_length, Et in L. cbn [List.length] in L. lia.
Qed.
Lemma members_ascii (s : str) (ms : list (str * list_entry)) : members_read s ms -> is_ascii s = true.
Proof.
  assert (Wa : forall w, Forall white w -> is_ascii w = true).
  { intros w H. apply white_all in H. apply (ascii_of_class is_ows); [vm_compute; reflexivity|exact H]. }
  induction 1 as [t m w M W|t m w1 w2 rest ms M W1 W2 R IH]; apply member_reads_spec in M; destruct M as [_ M];
    rewrite !is_ascii_app, M.
  - now rewrite (Wa w).
  - now rewrite (Wa w1), (Wa w2), IH.
Qed.

Lemma parse_dictionary_iff (s : str) (d : dictionary) : parse_dictionary s = Some d <-> dictionary_reads s d.
Proof.
  unfold parse_dictionary. split.
  - destruct (is_ascii s); [|discriminate].
    destruct (parse_dict_loop _ (skip_sp s) []) as [[d' r]|] eqn:P; [|discriminate].
    apply dict_loop_sound in P. destruct P as [-> P]. cbn. intro H. injection H as <-.
    destruct P as [[E ->]|(ms & M & ->)].
    + exists (List.length (take_while is_sp s)), (skip_sp s), []. split; [apply white_sp|]. split; [now left|].
      split; reflexivity.
    + exists (List.length (take_while is_sp s)), (skip_sp s), ms. split; [apply white_sp|]. split; [now right|].
      apply inserts_map_of.
  - intros (n & body & ms & -> & B & M). apply map_of_iff in M. subst d.
    rewrite is_ascii_app, spaces_ascii. destruct B as [[-> ->]|B].
    + cbn. rewrite skip_spaces by exact I. reflexivity.
    + rewrite (members_ascii _ _ B). cbn [andb]. destruct (members_head _ _ B) as (c & b' & E & Hc).
      rewrite skip_spaces by (rewrite E; now apply key_start_char).
      rewrite (dict_loop_complete _ _ _ [] B) by (rewrite app_length; lia). reflexivity.
Qed.
Lemma parse_item_field_iff (s : str) (i : item) : parse_item_field s = Some i <-> item_field_reads s i.
Proof.
  unfold parse_item_field. split.
  - destruct (is_ascii s); [|discriminate]. destruct (parse_item (skip_sp s)) as [[i' r]|] eqn:P; [|discriminate].
    destruct (skip_sp r) eqn:R; [|discriminate]. intro H. injection H as <-.
    apply parse_item_sound in P. destruct P as (t & E & P).
    exists (List.length (take_while is_sp s)), t, (List.length (take_while is_sp r)). split; [|exact P].
    rewrite (white_sp s) at 1. rewrite E. rewrite (white_sp r) at 1. now rewrite R, app_nil_r.
  - intros (n & t & m & -> & H). destruct (item_reads_head _ _ H) as (c & t' & Et & Hc).
    destruct (bare_head_facts _ Hc) as (F1 & _). pose proof (item_reads_spec _ _ H) as [P A].
    rewrite !is_ascii_app, !spaces_ascii, A. cbn [andb].
    rewrite skip_spaces by (rewrite Et; exact F1). rewrite P by (destruct m; [exact I|reflexivity]).
    rewrite <- (app_nil_r (spaces m)), skip_spaces by exact I. reflexivity.
Qed.
