(** More lemmas about Sfv.v: everything the parser returns can be serialized, the
    fuel of the loops is never exhausted, and the canonical form of a parsed
    value is the value itself up to the spelling of decimals. *)
From Verif Require Export SfvFacts.

(** ** Values that can be printed and read back *)
Definition bare_good (b : bare) : Prop := b <> BToken [] /\ ser_bare b <> None.
Definition key_good (k : str) : Prop := k <> [] /\ ser_key k <> None.
Definition params_good (p : params) : Prop :=
  NoDup (keys p) /\ (forall kv, In kv p -> key_good (fst kv) /\ bare_good (snd kv)).
Definition item_good (i : item) : Prop := bare_good (it_bare i) /\ params_good (it_params i).
Definition inner_good (l : inner_list) : Prop :=
  (forall i, In i (il_items l) -> item_good i) /\ params_good (il_params l).

Lemma ser_param_good (kv : str * bare) : key_good (fst kv) -> bare_good (snd kv) -> exists t, ser_param kv = Some t.
Proof.
  intros [_ Hk] [_ Hb]. unfold ser_param. destruct (ser_key (fst kv)) as [k|]; [|congruence].
  destruct (snd kv) as [d|z|s|bs|b|s]; try (destruct (ser_bare _) as [u|]; [eauto|congruence]).
  destruct b; [eauto|]. cbn. eauto.
Qed.
Lemma ser_params_good (p : params) : params_good p -> exists t, ser_params p = Some t.
Proof.
  intros [_ H]. induction p as [|kv p IH]; cbn [ser_params]; [eauto|].
  destruct (ser_param_good kv) as [a ->]; try apply H; try now left.
  destruct IH as [b ->]; [intros x Hx; apply H; now right|]. eauto.
Qed.
Lemma ser_item_good (i : item) : item_good i -> exists t, ser_item i = Some t.
Proof.
  intros [[_ Hb] Hp]. unfold ser_item. destruct (ser_bare (it_bare i)) as [a|]; [|congruence].
  destruct (ser_params_good _ Hp) as [b ->]. eauto.
Qed.
Lemma ser_items_good (l : list item) : (forall i, In i l -> item_good i) -> exists ts, ser_items l = Some ts.
Proof.
  induction l as [|i l IH]; intro H; cbn [ser_items]; [eauto|].
  destruct (ser_item_good i) as [a ->]; [apply H; now left|].
  destruct IH as [b ->]; [intros j Hj; apply H; now right|]. eauto.
Qed.
Lemma ser_inner_good (l : inner_list) : inner_good l -> exists t, ser_inner_list l = Some t.
Proof.
  intros [Hi Hp]. unfold ser_inner_list. destruct (ser_items_good _ Hi) as [ts ->].
  destruct (ser_params_good _ Hp) as [pt ->]. eauto.
Qed.

Lemma params_good_ne (p : params) : params_good p -> params_ne p.
Proof. intros [H1 H2]. split; [exact H1|]. intros kv H. apply H2 in H. destruct H as [[Hk _] [Hb _]]. now split. Qed.
Lemma item_good_ne (i : item) : item_good i -> item_ne i.
Proof. intros [[H1 _] H2]. split; [exact H1|now apply params_good_ne]. Qed.
Lemma inner_good_ne (l : inner_list) : inner_good l -> inner_ne l.
Proof. intros [H1 H2]. split; [|now apply params_good_ne]. intros i Hi. now apply item_good_ne, H1. Qed.

(** ... and conversely serializable values without empty tokens, empty keys and
    repeated keys are good. *)
Lemma ser_params_in (p : params) (t : str) : ser_params p = Some t ->
  forall kv, In kv p -> ser_key (fst kv) <> None /\ ser_bare (snd kv) <> None.
Proof.
  revert t. induction p as [|x p IH]; cbn [ser_params]; intros t H kv Hin; [destruct Hin|].
  destruct (ser_param x) as [a|] eqn:E; [|discriminate]. destruct (ser_params p) as [b|]; [|discriminate].
  destruct Hin as [<-|Hin]; [|now apply (IH b)].
  unfold ser_param in E. destruct (ser_key (fst x)) as [kt|]; [|discriminate]. split; [easy|].
  destruct (snd x) as [d|z|s|bs|bb|s]; try (destruct (ser_bare _); easy).
Qed.
Lemma params_ne_good (p : params) (t : str) : params_ne p -> ser_params p = Some t -> params_good p.
Proof.
  intros [H1 H2] H. split; [exact H1|]. intros kv Hin. destruct (H2 kv Hin) as [Hk Hb].
  destruct (ser_params_in p t H kv Hin) as [Hk' Hb']. now repeat split.
Qed.

(** ** The parser returns good values and consumes input *)
Lemma ltb12_len (n : N) : (n < 10 ^ 12)%N -> (12 <? N.of_nat (List.length (dec_of_N n)))%N = false.
Proof.
  intro H. apply N.ltb_ge. change 12%N with (N.of_nat 12).
  assert ((List.length (dec_of_N n) <= 12)%nat) by (apply dec_of_N_len; [lia|exact H]). lia.
Qed.

Lemma parse_number_good (s r : str) (b : bare) : parse_number s = Some (b, r) ->
  bare_good b /\ (List.length r < List.length s)%nat.
Proof.
  unfold parse_number.
  set (ns := match s with
             | c :: s' => if Ascii.eqb c "-" then (true, s') else (false, s)
             | [] => (false, s) end).
  assert (Hns : (List.length (snd ns) <= List.length s)%nat).
  { unfold ns. destruct s as [|c s]; [simpl; lia|]. destruct (Ascii.eqb c "-"); simpl; lia. }
  destruct ns as [neg s1]. cbn [snd] in Hns.
  destruct s1 as [|c s1]; [discriminate|]. destruct (is_digit c) eqn:D; [|discriminate].
  unfold extract_digits.
  set (t := c :: s1) in *.
  pose proof (take_while_len is_digit t) as TL.
  assert (T1 : (1 <= List.length (take_while is_digit t))%nat).
  { unfold t. simpl. rewrite D. simpl. lia. }
  pose proof (take_while_all is_digit t) as TA.
  set (ip := take_while is_digit t) in *. set (q := drop_while is_digit t) in *.
  destruct (15 <? N.of_nat (List.length ip))%N eqn:L15; [discriminate|].
  assert (Int : forall r', r' = q ->
    (let v := Z.of_N (val_of_dec ip) in
     let v0 := if neg then (- v)%Z else v in
     if (- sfv_int_max <=? v0)%Z && (v0 <=? sfv_int_max)%Z then Some (BInteger v0, r') else None) = Some (b, r) ->
    bare_good b /\ (List.length r < List.length s)%nat).
  { intros r' -> H. cbv zeta in H. destruct (_ && _) eqn:E in H; [|discriminate]. injection H as <- <-.
    split; [split; [easy|]|lia]. cbn [ser_bare]. unfold ser_integer. rewrite E. easy. }
  destruct q as [|e q1] eqn:Q.
  - now apply Int.
  - destruct (Ascii.eqb e ".").
    + destruct (12 <? N.of_nat (List.length ip))%N eqn:L12; [discriminate|]. cbv zeta.
      pose proof (take_while_len is_digit q1) as TL'.
      pose proof (take_while_all is_digit q1) as TA'.
      set (fp := take_while is_digit q1) in *. set (q2 := drop_while is_digit q1) in *.
      destruct (16 <? _)%N; [discriminate|].
      cbn [List.length] in TL.
      assert (G : forall n, List.length fp = n -> (1 <= n <= 3)%nat ->
          ser_decimal (Dec neg (val_of_dec (ip ++ fp)) n) <> None).
      { intros n Hn Hr. unfold ser_decimal, round3. cbn [d_scale].
        replace (n <=? 3)%nat with true by lia. cbn [d_scale d_mant d_neg].
        rewrite val_of_dec_app, Hn.
        pose proof (val_of_dec_lt _ TA) as V1. pose proof (val_of_dec_lt _ TA') as V2. rewrite Hn in V2.
        rewrite N.div_add_l by (apply N.pow_nonzero; lia). rewrite (N.div_small (val_of_dec fp)) by exact V2.
        rewrite N.add_0_r. rewrite ltb12_len.
        - destruct (_ =? 0)%N; easy.
        - eapply N.lt_le_trans; [exact V1|]. apply N.pow_le_mono_r; lia. }
      destruct (List.length fp) as [|[|[|[|n]]]] eqn:Lf; intro H; try discriminate; injection H as <- <-;
        (split; [split; [easy|]; cbn [ser_bare]; apply G; lia|lia]).
    + now apply Int.
Qed.

Lemma parse_string_body_good (s t r : str) : parse_string_body s = Some (t, r) ->
  forallb is_visible t = true /\ (List.length r < List.length s)%nat.
Proof.
  assert (G : forall n s t r, (List.length s < n)%nat -> parse_string_body s = Some (t, r) ->
     forallb is_visible t = true /\ (List.length r < List.length s)%nat).
  { clear. induction n as [|n IH]; intros s t r Hn H; [lia|].
    destruct s as [|c s]; [discriminate|]. cbn [parse_string_body] in H. cbn [List.length] in *.
    destruct (Ascii.eqb c ch_quote) eqn:E1; [injection H as <- <-; split; [reflexivity|lia]|].
    destruct (Ascii.eqb c ch_bslash) eqn:E2.
    - destruct s as [|d s]; [discriminate|].
      destruct (Ascii.eqb d ch_bslash || Ascii.eqb d ch_quote) eqn:E; [|discriminate].
      destruct (parse_string_body s) as [[t' r']|] eqn:P; [|discriminate]. injection H as <- <-.
      cbn [List.length] in *. destruct (IH s t' r' ltac:(lia) P) as [I1 I2]. split; [|lia].
      cbn [forallb]. rewrite I1, andb_true_r.
      apply orb_true_iff in E. destruct E as [E|E]; apply Ascii.eqb_eq in E; subst; reflexivity.
    - destruct (is_visible c) eqn:V; [|discriminate].
      destruct (parse_string_body s) as [[t' r']|] eqn:P; [|discriminate]. injection H as <- <-.
      destruct (IH s t' r' ltac:(lia) P) as [I1 I2]. split; [|lia]. cbn [forallb]. now rewrite V, I1. }
  intro H. exact (G (S (List.length s)) s t r ltac:(lia) H).
Qed.

Lemma parse_bare_good (s r : str) (b : bare) : parse_bare_item s = Some (b, r) ->
  bare_good b /\ (List.length r < List.length s)%nat.
Proof.
  destruct s as [|c s]; [discriminate|]. unfold parse_bare_item.
  destruct (Ascii.eqb c "?").
  { destruct s as [|d s]; [discriminate|]. unfold parse_bool_body.
    destruct (Ascii.eqb d "1"); [intro H; injection H as <- <-; split; [easy|simpl; lia]|].
    destruct (Ascii.eqb d "0"); [intro H; injection H as <- <-; split; [easy|simpl; lia]|discriminate]. }
  destruct (Ascii.eqb c ch_quote).
  { destruct (parse_string_body s) as [[t r']|] eqn:P; [|discriminate]. intro H. injection H as <- <-.
    apply parse_string_body_good in P. destruct P as [P1 P2]. split; [split; [easy|]|simpl; lia].
    cbn [ser_bare]. unfold ser_string. now rewrite P1. }
  destruct (Ascii.eqb c ":").
  { unfold parse_byteseq_body. destruct (split_once ":" s) as [[content rest]|] eqn:E; [|discriminate].
    apply split_once_spec in E. destruct E as [-> _].
    destruct (forallb is_b64_char content); [|discriminate].
    destruct (sfv_b64_decode content); [|discriminate]. intro H. injection H as <- <-.
    split; [easy|]. simpl. rewrite app_length. simpl. lia. }
  destruct (is_token_start c) eqn:T.
  { unfold parse_token. rewrite T.
    destruct (token_start_facts c T) as (_ & _ & _ & T4).
    pose proof (take_while_all is_token_char (c :: s)) as TA.
    pose proof (take_while_len is_token_char (c :: s)) as TL.
    remember (take_while is_token_char (c :: s)) as tk eqn:Etk.
    remember (drop_while is_token_char (c :: s)) as dk eqn:Edk.
    cbn [take_while] in Etk. rewrite T4 in Etk.
    intro H. injection H as <- <-. split; [split|].
    - now rewrite Etk.
    - cbn [ser_bare]. unfold ser_token. rewrite TA, Etk. cbn [andb]. now rewrite T.
    - rewrite Etk in TL. cbn [List.length] in *. lia. }
  destruct (Ascii.eqb c "-" || is_digit c); [|discriminate]. apply parse_number_good.
Qed.

Lemma parse_key_good (s k r : str) : parse_key s = Some (k, r) ->
  key_good k /\ (List.length r < List.length s)%nat.
Proof.
  destruct s as [|c s]; [discriminate|]. unfold parse_key.
  destruct (is_key_start c) eqn:E; [|discriminate].
  destruct (key_start_char c E) as [K _].
  pose proof (take_while_all is_key_char (c :: s)) as TA.
  pose proof (take_while_len is_key_char (c :: s)) as TL.
  remember (take_while is_key_char (c :: s)) as tk eqn:Etk.
  remember (drop_while is_key_char (c :: s)) as dk eqn:Edk.
  cbn [take_while] in Etk. rewrite K in Etk.
  intro H. injection H as <- <-. split; [split|].
  - now rewrite Etk.
  - unfold ser_key. rewrite TA, Etk. cbn [andb]. now rewrite E.
  - rewrite Etk in TL. cbn [List.length] in *. lia.
Qed.

Lemma imap_insert_good (p : params) (k : str) (v : bare) :
  params_good p -> key_good k -> bare_good v -> params_good (imap_insert p k v).
Proof.
  intros [H1 H2] Hk Hv. split; [now apply imap_insert_nodup|].
  intros kv Hin. apply imap_insert_in in Hin. destruct Hin as [Hin| ->]; [now apply H2|now split].
Qed.
Lemma true_good : bare_good (BBoolean true).
Proof. easy. Qed.

Lemma parse_params_loop_good (fuel : nat) (s r : str) (acc p : params) :
  params_good acc -> parse_params_loop fuel s acc = Some (p, r) ->
  params_good p /\ (List.length r <= List.length s)%nat.
Proof.
  revert s acc. induction fuel as [|f IH]; intros s acc Ha H; [discriminate|].
  cbn [parse_params_loop] in H. destruct s as [|c s]; [injection H as <- <-; split; [exact Ha|lia]|].
  destruct (Ascii.eqb c ";"); [|injection H as <- <-; split; [exact Ha|lia]].
  destruct (parse_key (skip_sp s)) as [[k s2]|] eqn:K; [|discriminate].
  apply parse_key_good in K. destruct K as [K1 K2].
  assert (K3 : (List.length s2 < List.length s)%nat).
  { pose proof (drop_while_len is_sp s). unfold skip_sp in K2. lia. }
  cbn [List.length].
  assert (Tr : parse_params_loop f s2 (imap_insert acc k (BBoolean true)) = Some (p, r) ->
               params_good p /\ (List.length r <= S (List.length s))%nat).
  { intro H'. apply IH in H'; [split; [tauto|lia]|]. now apply imap_insert_good. }
  destruct s2 as [|e s3]; [now apply Tr|].
  destruct (Ascii.eqb e "="); [|now apply Tr].
  destruct (parse_bare_item s3) as [[v s4]|] eqn:B; [|discriminate].
  apply parse_bare_good in B. destruct B as [B1 B2]. cbn [List.length] in *.
  apply IH in H; [split; [tauto|lia]|]. now apply imap_insert_good.
Qed.
Lemma nil_good : params_good [].
Proof. split; [constructor|easy]. Qed.
Lemma parse_params_good (s r : str) (p : params) : parse_params s = Some (p, r) ->
  params_good p /\ (List.length r <= List.length s)%nat.
Proof. apply parse_params_loop_good, nil_good. Qed.

Lemma parse_item_good (s r : str) (i : item) : parse_item s = Some (i, r) ->
  item_good i /\ (List.length r < List.length s)%nat.
Proof.
  unfold parse_item. destruct (parse_bare_item s) as [[b r1]|] eqn:B; [|discriminate].
  destruct (parse_params r1) as [[p r2]|] eqn:P; [|discriminate]. intro H. injection H as <- <-.
  apply parse_bare_good in B. apply parse_params_good in P. split; [now split|lia].
Qed.

Lemma parse_inner_loop_good (fuel : nat) (s r : str) (acc : list item) (l : inner_list) :
  (forall i, In i acc -> item_good i) -> parse_inner_loop fuel s acc = Some (l, r) ->
  inner_good l /\ (List.length r < List.length s)%nat.
Proof.
  revert s acc. induction fuel as [|f IH]; intros s acc Ha H; [discriminate|].
  cbn [parse_inner_loop] in H. destruct s as [|x s]; [discriminate|].
  pose proof (drop_while_len is_sp (x :: s)) as DL. fold (skip_sp (x :: s)) in DL.
  destruct (skip_sp (x :: s)) as [|c s1]; [discriminate|].
  destruct (Ascii.eqb c ")").
  - destruct (parse_params s1) as [[p r']|] eqn:P; [|discriminate]. injection H as <- <-.
    apply parse_params_good in P. cbn [List.length] in *. split; [split; [|tauto]|lia].
    intros i Hi. cbn [il_items] in Hi. apply in_rev in Hi. now apply Ha.
  - destruct (parse_item (c :: s1)) as [[i r']|] eqn:P; [|discriminate].
    apply parse_item_good in P. destruct r' as [|d r']; [discriminate|].
    destruct (is_sp d || Ascii.eqb d ")"); [|discriminate].
    apply IH in H; [split; [tauto|lia]|]. intros j [<-|Hj]; [tauto|now apply Ha].
Qed.
Lemma parse_inner_list_body_good (s r : str) (l : inner_list) : parse_inner_list_body s = Some (l, r) ->
  inner_good l /\ (List.length r < List.length s)%nat.
Proof. now apply parse_inner_loop_good. Qed.

Definition entry_good (e : list_entry) : Prop := match e with LEItem i => item_good i | LEInner l => inner_good l end.
Lemma parse_list_entry_good (s r : str) (e : list_entry) : parse_list_entry s = Some (e, r) ->
  entry_good e /\ (List.length r < List.length s)%nat.
Proof.
  destruct s as [|c s]; [discriminate|]. unfold parse_list_entry. destruct (Ascii.eqb c "(").
  - destruct (parse_inner_list_body s) as [[l r']|] eqn:P; [|discriminate]. intro H. injection H as <- <-.
    apply parse_inner_list_body_good in P. cbn [List.length entry_good]. split; [tauto|lia].
  - destruct (parse_item (c :: s)) as [[i r']|] eqn:P; [|discriminate]. intro H. injection H as <- <-.
    now apply parse_item_good in P.
Qed.

Lemma parse_dict_loop_good (fuel : nat) (s r : str) (acc d : dictionary) :
  (forall kv, In kv acc -> key_good (fst kv) /\ entry_good (snd kv)) ->
  parse_dict_loop fuel s acc = Some (d, r) ->
  forall kv, In kv d -> key_good (fst kv) /\ entry_good (snd kv).
Proof.
  revert s acc. induction fuel as [|f IH]; intros s acc Ha H; [discriminate|].
  cbn [parse_dict_loop] in H. destruct s as [|x s]; [injection H as <- <-; exact Ha|].
  destruct (parse_key (x :: s)) as [[k s1]|] eqn:K; [|discriminate]. apply parse_key_good in K.
  set (m := match s1 with
            | e :: s2 => if Ascii.eqb e "=" then parse_list_entry s2
                         else match parse_params s1 with
                              | Some (p, r) => Some (LEItem (Item (BBoolean true) p), r)
                              | None => None end
            | [] => Some (LEItem (Item (BBoolean true) []), []) end) in *.
  assert (Hm : forall e r', m = Some (e, r') -> entry_good e).
  { intros e r'. unfold m. destruct s1 as [|y s2].
    - intro E. injection E as <- <-. split; [easy|apply nil_good].
    - destruct (Ascii.eqb y "=").
      + intro E. apply parse_list_entry_good in E. tauto.
      + destruct (parse_params (y :: s2)) as [[p r1]|] eqn:P; [|discriminate]. intro E. injection E as <- <-.
        apply parse_params_good in P. split; [easy|tauto]. }
  cbv zeta in H. destruct m as [[e s3]|]; [|discriminate]. specialize (Hm e s3 eq_refl).
  assert (Ha' : forall kv, In kv (imap_insert acc k e) -> key_good (fst kv) /\ entry_good (snd kv)).
  { intros kv Hin. apply imap_insert_in in Hin. destruct Hin as [Hin| ->]; [now apply Ha|]. now split. }
  destruct (skip_ows s3) as [|c s4]; [injection H as <- <-; exact Ha'|].
  destruct (Ascii.eqb c ","); [|discriminate]. destruct (skip_ows s4) as [|y s5]; [discriminate|].
  exact (IH _ _ Ha' H).
Qed.
Lemma parse_dictionary_good (s : str) (d : dictionary) : parse_dictionary s = Some d ->
  forall kv, In kv d -> key_good (fst kv) /\ entry_good (snd kv).
Proof.
  unfold parse_dictionary. destruct (is_ascii s); [|discriminate].
  destruct (parse_dict_loop _ (skip_sp s) []) as [[d' r]|] eqn:P; [|discriminate].
  destruct (skip_sp r); [|discriminate]. intro H. injection H as <-.
  eapply parse_dict_loop_good; [|exact P]. easy.
Qed.
Lemma parse_item_field_good (s : str) (i : item) : parse_item_field s = Some i -> item_good i.
Proof.
  unfold parse_item_field. destruct (is_ascii s); [|discriminate].
  destruct (parse_item (skip_sp s)) as [[i' r]|] eqn:P; [|discriminate].
  destruct (skip_sp r); [|discriminate]. intro H. injection H as <-. now apply parse_item_good in P.
Qed.

(** ** The fuel is never exhausted: more fuel than the length changes nothing *)
Lemma parse_params_fuel (f1 f2 : nat) (s : str) (acc : params) :
  (List.length s < f1)%nat -> (List.length s < f2)%nat ->
  parse_params_loop f1 s acc = parse_params_loop f2 s acc.
Proof.
  revert f2 s acc. induction f1 as [|f1 IH]; intros f2 s acc H1 H2; [lia|]. destruct f2 as [|f2]; [lia|].
  cbn [parse_params_loop]. destruct s as [|c s]; [reflexivity|]. destruct (Ascii.eqb c ";"); [|reflexivity].
  destruct (parse_key (skip_sp s)) as [[k s2]|] eqn:K; [|reflexivity].
  apply parse_key_good in K. destruct K as [_ K2].
  assert (K3 : (List.length s2 < List.length s)%nat).
  { pose proof (drop_while_len is_sp s). unfold skip_sp in K2. lia. }
  cbn [List.length] in *.
  destruct s2 as [|e s3]; [apply IH; cbn [List.length] in *; lia|].
  destruct (Ascii.eqb e "="); [|apply IH; cbn [List.length] in *; lia].
  destruct (parse_bare_item s3) as [[v s4]|] eqn:B; [|reflexivity].
  apply parse_bare_good in B. cbn [List.length] in *. apply IH; lia.
Qed.
Lemma parse_inner_fuel (f1 f2 : nat) (s : str) (acc : list item) :
  (List.length s < f1)%nat -> (List.length s < f2)%nat ->
  parse_inner_loop f1 s acc = parse_inner_loop f2 s acc.
Proof.
  revert f2 s acc. induction f1 as [|f1 IH]; intros f2 s acc H1 H2; [lia|]. destruct f2 as [|f2]; [lia|].
  cbn [parse_inner_loop]. destruct s as [|x s]; [reflexivity|].
  pose proof (drop_while_len is_sp (x :: s)) as DL. fold (skip_sp (x :: s)) in DL.
  destruct (skip_sp (x :: s)) as [|c s1]; [reflexivity|]. destruct (Ascii.eqb c ")"); [reflexivity|].
  destruct (parse_item (c :: s1)) as [[i r]|] eqn:P; [|reflexivity]. apply parse_item_good in P.
  destruct r as [|d r]; [reflexivity|]. destruct (is_sp d || Ascii.eqb d ")"); [|reflexivity].
  apply IH; cbn [List.length] in *; lia.
Qed.
Lemma parse_dict_fuel (f1 f2 : nat) (s : str) (acc : dictionary) :
  (List.length s < f1)%nat -> (List.length s < f2)%nat ->
  parse_dict_loop f1 s acc = parse_dict_loop f2 s acc.
Proof.
  revert f2 s acc. induction f1 as [|f1 IH]; intros f2 s acc H1 H2; [lia|]. destruct f2 as [|f2]; [lia|].
  cbn [parse_dict_loop]. destruct s as [|x s]; [reflexivity|].
  destruct (parse_key (x :: s)) as [[k s1]|] eqn:K; [|reflexivity]. apply parse_key_good in K.
  set (m := match s1 with
            | e :: s2 => if Ascii.eqb e "=" then parse_list_entry s2
                         else match parse_params s1 with
                              | Some (p, r) => Some (LEItem (Item (BBoolean true) p), r)
                              | None => None end
            | [] => Some (LEItem (Item (BBoolean true) []), []) end).
  assert (Hm : forall e r', m = Some (e, r') -> (List.length r' <= List.length s1)%nat).
  { intros e r'. unfold m. destruct s1 as [|y s2].
    - intro E. injection E as <- <-. simpl. lia.
    - destruct (Ascii.eqb y "=").
      + intro E. apply parse_list_entry_good in E. cbn [List.length]. lia.
      + destruct (parse_params (y :: s2)) as [[p r1]|] eqn:P; [|discriminate]. intro E. injection E as <- <-.
        apply parse_params_good in P. tauto. }
  cbv zeta. destruct m as [[e s3]|]; [|reflexivity]. specialize (Hm e s3 eq_refl).
  pose proof (drop_while_len is_ows s3) as D3. fold (skip_ows s3) in D3.
  destruct (skip_ows s3) as [|c s4]; [reflexivity|]. destruct (Ascii.eqb c ","); [|reflexivity].
  pose proof (drop_while_len is_ows s4) as D4. fold (skip_ows s4) in D4.
  destruct (skip_ows s4) as [|y s5]; [reflexivity|]. apply IH; cbn [List.length] in *; lia.
Qed.

(** ** Canonical forms keep the value *)

(** Two decimals with the same sign and the same magnitude. *)
Definition dec_same (a b : decimal) : Prop :=
  d_neg a = d_neg b /\ (d_mant a * 10 ^ N.of_nat (d_scale b) = d_mant b * 10 ^ N.of_nat (d_scale a))%N.

Lemma canon_dec_same (d : decimal) : (d_scale d <= 3)%nat -> dec_same (canon_dec d) d.
Proof.
  intro H. unfold canon_dec, round3. replace (d_scale d <=? 3)%nat with true by lia.
  destruct (d_mant d mod 10 ^ N.of_nat (d_scale d) =? 0)%N eqn:E.
  - split; [reflexivity|]. cbn [d_mant d_scale]. apply N.eqb_eq in E.
    change (10 ^ N.of_nat 1)%N with 10%N.
    pose proof (N.div_mod' (d_mant d) (10 ^ N.of_nat (d_scale d))) as D. rewrite E in D. nia.
  - split; reflexivity.
Qed.

Lemma canon_idem_dec (d : decimal) : canon_dec (canon_dec d) = canon_dec d.
Proof.
  unfold canon_dec at 2 3. set (r := round3 d). pose proof (round3_scale d) as Hs. fold r in Hs.
  cbv zeta. destruct (d_mant r mod 10 ^ N.of_nat (d_scale r) =? 0)%N eqn:E.
  - unfold canon_dec, round3. cbn [d_scale]. change (1 <=? 3)%nat with true. cbv iota zeta.
    cbn [d_scale d_mant d_neg]. change (10 ^ N.of_nat 1)%N with 10%N.
    rewrite N.mul_comm, N.mod_mul by lia. cbn [N.eqb]. rewrite N.div_mul by lia. f_equal. lia.
  - unfold canon_dec, round3. replace (d_scale r <=? 3)%nat with true by lia. now rewrite E.
Qed.

(** The scale of a parsed decimal is at most three. *)
Definition bare_small (b : bare) : Prop := match b with BDecimal d => (1 <= d_scale d <= 3)%nat | _ => True end.

Lemma parse_bare_small (s r : str) (b : bare) : parse_bare_item s = Some (b, r) -> bare_small b.
Proof.
  destruct s as [|c s]; [discriminate|]. unfold parse_bare_item.
  destruct (Ascii.eqb c "?"); [destruct (parse_bool_body s) as [[? ?]|]; [|discriminate]; intro H; injection H as <- <-; exact I|].
  destruct (Ascii.eqb c ch_quote); [destruct (parse_string_body s) as [[? ?]|]; [|discriminate]; intro H; injection H as <- <-; exact I|].
  destruct (Ascii.eqb c ":"); [destruct (parse_byteseq_body s) as [[? ?]|]; [|discriminate]; intro H; injection H as <- <-; exact I|].
  destruct (is_token_start c); [destruct (parse_token (c :: s)) as [[? ?]|]; [|discriminate]; intro H; injection H as <- <-; exact I|].
  destruct (Ascii.eqb c "-" || is_digit c); [|discriminate].
  unfold parse_number. destruct (if Ascii.eqb c "-" then _ else _) as [neg s1].
  destruct s1 as [|d s1]; [discriminate|]. destruct (is_digit d); [|discriminate].
  destruct (extract_digits (d :: s1)) as [[[ip [fp|]] q]|]; [| |discriminate].
  - destruct (List.length fp) as [|[|[|[|n]]]]; intro H; try discriminate; injection H as <- <-; simpl; lia.
  - cbv zeta. destruct (_ && _); [|discriminate]. intro H. injection H as <- <-. exact I.
Qed.

(** Decimals the parser returns have one to three fraction digits, everywhere. *)
Definition params_small (p : params) : Prop := forall kv, In kv p -> bare_small (snd kv).
Definition item_small (i : item) : Prop := bare_small (it_bare i) /\ params_small (it_params i).
Definition inner_small (l : inner_list) : Prop :=
  (forall i, In i (il_items l) -> item_small i) /\ params_small (il_params l).
Definition entry_small (e : list_entry) : Prop := match e with LEItem i => item_small i | LEInner l => inner_small l end.

Lemma imap_insert_small (p : params) (k : str) (v : bare) : params_small p -> bare_small v -> params_small (imap_insert p k v).
Proof. intros H Hv kv Hin. apply imap_insert_in in Hin. destruct Hin as [Hin| ->]; [now apply H|exact Hv]. Qed.
Lemma parse_params_loop_small (fuel : nat) (s r : str) (acc p : params) :
  params_small acc -> parse_params_loop fuel s acc = Some (p, r) -> params_small p.
Proof.
  revert s acc. induction fuel as [|f IH]; intros s acc Ha H; [discriminate|].
  cbn [parse_params_loop] in H. destruct s as [|c s]; [injection H as <- <-; exact Ha|].
  destruct (Ascii.eqb c ";"); [|injection H as <- <-; exact Ha].
  destruct (parse_key (skip_sp s)) as [[k s2]|] eqn:K; [|discriminate].
  assert (Tr : parse_params_loop f s2 (imap_insert acc k (BBoolean true)) = Some (p, r) -> params_small p).
  { intro H'. apply IH in H'; [exact H'|]. now apply imap_insert_small. }
  destruct s2 as [|e s3]; [now apply Tr|].
  destruct (Ascii.eqb e "="); [|now apply Tr].
  destruct (parse_bare_item s3) as [[v s4]|] eqn:B; [|discriminate].
  apply parse_bare_small in B. apply IH in H; [exact H|]. now apply imap_insert_small.
Qed.
Lemma parse_params_small (s r : str) (p : params) : parse_params s = Some (p, r) -> params_small p.
Proof. apply parse_params_loop_small. intros kv []. Qed.
Lemma parse_item_small (s r : str) (i : item) : parse_item s = Some (i, r) -> item_small i.
Proof.
  unfold parse_item. destruct (parse_bare_item s) as [[b r1]|] eqn:B; [|discriminate].
  destruct (parse_params r1) as [[p r2]|] eqn:P; [|discriminate]. intro H. injection H as <- <-.
  apply parse_bare_small in B. apply parse_params_small in P. now split.
Qed.
Lemma parse_inner_loop_small (fuel : nat) (s r : str) (acc : list item) (l : inner_list) :
  (forall i, In i acc -> item_small i) -> parse_inner_loop fuel s acc = Some (l, r) -> inner_small l.
Proof.
  revert s acc. induction fuel as [|f IH]; intros s acc Ha H; [discriminate|].
  cbn [parse_inner_loop] in H. destruct s as [|x s]; [discriminate|].
  destruct (skip_sp (x :: s)) as [|c s1]; [discriminate|].
  destruct (Ascii.eqb c ")").
  - destruct (parse_params s1) as [[p r']|] eqn:P; [|discriminate]. injection H as <- <-.
    apply parse_params_small in P. split; [|exact P].
    intros i Hi. cbn [il_items] in Hi. apply in_rev in Hi. now apply Ha.
  - destruct (parse_item (c :: s1)) as [[i r']|] eqn:P; [|discriminate].
    apply parse_item_small in P. destruct r' as [|d r']; [discriminate|].
    destruct (is_sp d || Ascii.eqb d ")"); [|discriminate].
    apply IH in H; [exact H|]. intros j [<-|Hj]; [exact P|now apply Ha].
Qed.
Lemma parse_list_entry_small (s r : str) (e : list_entry) : parse_list_entry s = Some (e, r) -> entry_small e.
Proof.
  destruct s as [|c s]; [discriminate|]. unfold parse_list_entry. destruct (Ascii.eqb c "(").
  - destruct (parse_inner_list_body s) as [[l r']|] eqn:P; [|discriminate]. intro H. injection H as <- <-.
    unfold parse_inner_list_body in P. apply parse_inner_loop_small in P; [exact P|]. intros i [].
  - destruct (parse_item (c :: s)) as [[i r']|] eqn:P; [|discriminate]. intro H. injection H as <- <-.
    now apply parse_item_small in P.
Qed.
Lemma parse_dict_loop_small (fuel : nat) (s r : str) (acc d : dictionary) :
  (forall kv, In kv acc -> entry_small (snd kv)) -> parse_dict_loop fuel s acc = Some (d, r) ->
  forall kv, In kv d -> entry_small (snd kv).
Proof.
  revert s acc. induction fuel as [|f IH]; intros s acc Ha H; [discriminate|].
  cbn [parse_dict_loop] in H. destruct s as [|x s]; [injection H as <- <-; exact Ha|].
  destruct (parse_key (x :: s)) as [[k s1]|] eqn:K; [|discriminate].
  set (m := match s1 with
            | e :: s2 => if Ascii.eqb e "=" then parse_list_entry s2
                         else match parse_params s1 with
                              | Some (p, r) => Some (LEItem (Item (BBoolean true) p), r)
                              | None => None end
            | [] => Some (LEItem (Item (BBoolean true) []), []) end) in *.
  assert (Hm : forall e r', m = Some (e, r') -> entry_small e).
  { intros e r'. unfold m. destruct s1 as [|y s2].
    - intro E. injection E as <- <-. split; [exact I|]. intros kv [].
    - destruct (Ascii.eqb y "=").
      + intro E. now apply parse_list_entry_small in E.
      + destruct (parse_params (y :: s2)) as [[p r1]|] eqn:P; [|discriminate]. intro E. injection E as <- <-.
        apply parse_params_small in P. now split. }
  cbv zeta in H. destruct m as [[e s3]|]; [|discriminate]. specialize (Hm e s3 eq_refl).
  assert (Ha' : forall kv, In kv (imap_insert acc k e) -> entry_small (snd kv)).
  { intros kv Hin. apply imap_insert_in in Hin. destruct Hin as [Hin| ->]; [now apply Ha|exact Hm]. }
  destruct (skip_ows s3) as [|c s4]; [injection H as <- <-; exact Ha'|].
  destruct (Ascii.eqb c ","); [|discriminate]. destruct (skip_ows s4) as [|y s5]; [discriminate|].
  exact (IH _ _ Ha' H).
Qed.
Lemma parse_dictionary_small (s : str) (d : dictionary) : parse_dictionary s = Some d ->
  forall kv, In kv d -> entry_small (snd kv).
Proof.
  unfold parse_dictionary. destruct (is_ascii s); [|discriminate].
  destruct (parse_dict_loop _ (skip_sp s) []) as [[d' r]|] eqn:P; [|discriminate].
  destruct (skip_sp r); [|discriminate]. intro H. injection H as <-.
  eapply parse_dict_loop_small; [|exact P]. intros kv [].
Qed.
Lemma parse_item_field_small (s : str) (i : item) : parse_item_field s = Some i -> item_small i.
Proof.
  unfold parse_item_field. destruct (is_ascii s); [|discriminate].
  destruct (parse_item (skip_sp s)) as [[i' r]|] eqn:P; [|discriminate].
  destruct (skip_sp r); [|discriminate]. intro H. injection H as <-. now apply parse_item_small in P.
Qed.
