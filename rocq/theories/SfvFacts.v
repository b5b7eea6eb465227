(** Lemmas about Sfv.v: the parser inverts the serializer. *)
From Verif Require Export Sfv StrFacts Base64Facts.

(** ** Byte classes *)
Lemma digit_facts (c : ascii) : is_digit c = true ->
  Ascii.eqb c "?" = false /\ Ascii.eqb c ch_quote = false /\ Ascii.eqb c ":" = false
  /\ is_token_start c = false /\ Ascii.eqb c "-" = false /\ Ascii.eqb c "." = false.
Proof.
  assert (E : forallb (fun c => negb (is_digit c)
     || negb (Ascii.eqb c "?" || Ascii.eqb c ch_quote || Ascii.eqb c ":" || is_token_start c
              || Ascii.eqb c "-" || Ascii.eqb c ".")) all_bytes = true) by (vm_compute; reflexivity).
  pose proof (byte_all _ E c) as H. cbv beta in H. intro D. rewrite D in H. simpl in H.
  apply negb_true_iff in H. rewrite !orb_false_iff in H. tauto.
Qed.
Lemma token_start_facts (c : ascii) : is_token_start c = true ->
  Ascii.eqb c "?" = false /\ Ascii.eqb c ch_quote = false /\ Ascii.eqb c ":" = false /\ is_token_char c = true.
Proof.
  assert (E : forallb (fun c => negb (is_token_start c)
     || (negb (Ascii.eqb c "?" || Ascii.eqb c ch_quote || Ascii.eqb c ":") && is_token_char c)) all_bytes = true)
    by (vm_compute; reflexivity).
  pose proof (byte_all _ E c) as H. cbv beta in H. intro D. rewrite D in H. simpl in H.
  apply andb_true_iff in H. rewrite negb_true_iff, !orb_false_iff in H. tauto.
Qed.
Lemma key_start_char (c : ascii) : is_key_start c = true -> is_key_char c = true /\ is_sp c = false.
Proof.
  assert (E : forallb (fun c => negb (is_key_start c) || (is_key_char c && negb (is_sp c))) all_bytes = true)
    by (vm_compute; reflexivity).
  pose proof (byte_all _ E c) as H. cbv beta in H. intro D. rewrite D in H. simpl in H.
  apply andb_true_iff in H. now rewrite negb_true_iff in H.
Qed.

(** What may follow a bare item: [;], space, tab, [)], [,] or the end. *)
Definition follow (c : ascii) : bool := existsb (Ascii.eqb c) ("009"%char :: $"; ),").
Definition follows (s : str) : Prop := match s with [] => True | c :: _ => follow c = true end.
(** What may follow parameters: the same without [;]. *)
Definition pend (c : ascii) : bool := existsb (Ascii.eqb c) ("009"%char :: $" ),").
Definition pends (s : str) : Prop := match s with [] => True | c :: _ => pend c = true end.

Lemma follow_facts (c : ascii) : follow c = true ->
  is_digit c = false /\ is_token_char c = false /\ is_key_char c = false /\ Ascii.eqb c "." = false
  /\ Ascii.eqb c "=" = false.
Proof.
  assert (E : forallb (fun c => negb (follow c)
     || negb (is_digit c || is_token_char c || is_key_char c || Ascii.eqb c "." || Ascii.eqb c "=")) all_bytes = true)
    by (vm_compute; reflexivity).
  pose proof (byte_all _ E c) as H. cbv beta in H. intro D. rewrite D in H. simpl in H.
  rewrite negb_true_iff, !orb_false_iff in H. tauto.
Qed.
Lemma pend_follow (c : ascii) : pend c = true -> follow c = true /\ Ascii.eqb c ";" = false.
Proof.
  assert (E : forallb (fun c => negb (pend c) || (follow c && negb (Ascii.eqb c ";"))) all_bytes = true)
    by (vm_compute; reflexivity).
  pose proof (byte_all _ E c) as H. cbv beta in H. intro D. rewrite D in H. simpl in H.
  apply andb_true_iff in H. now rewrite negb_true_iff in H.
Qed.
Lemma pends_follows (s : str) : pends s -> follows s.
Proof. destruct s as [|c s]; simpl; [easy|]. intro H. now apply pend_follow. Qed.
Lemma follows_stops (s : str) : follows s ->
  stops is_digit s /\ stops is_token_char s /\ stops is_key_char s
  /\ match s with c :: _ => Ascii.eqb c "." = false /\ Ascii.eqb c "=" = false | [] => True end.
Proof. destruct s as [|c s]; simpl; [easy|]. intro H. apply follow_facts in H. tauto. Qed.

(** ** Canonical forms: what the printed value reads back as.  Only decimals
    change (they are rounded to three places, and lose the zeros of ["1.00"]). *)
Definition canon_dec (d0 : decimal) : decimal :=
  let d := round3 d0 in
  let u := (10 ^ N.of_nat (d_scale d))%N in
  if (d_mant d mod u =? 0)%N then Dec (d_neg d) (10 * (d_mant d / u)) 1 else d.
Definition canon_bare (b : bare) : bare := match b with BDecimal d => BDecimal (canon_dec d) | _ => b end.
Definition canon_params (p : params) : params := map (fun kv => (fst kv, canon_bare (snd kv))) p.
Definition canon_item (i : item) : item := Item (canon_bare (it_bare i)) (canon_params (it_params i)).
Definition canon_inner (l : inner_list) : inner_list :=
  InnerList (map canon_item (il_items l)) (canon_params (il_params l)).

(** ** Bare items *)
Lemma parse_string_escape (s rest : str) : forallb is_visible s = true ->
  parse_string_body (escape s ++ ch_quote :: rest) = Some (s, rest).
Proof.
  induction s as [|c s IH]; intro H.
  - reflexivity.
  - simpl in H. apply andb_true_iff in H. destruct H as [Hc Hs]. specialize (IH Hs).
    cbn [escape]. destruct (Ascii.eqb c ch_bslash || Ascii.eqb c ch_quote) eqn:E.
    + cbn [app parse_string_body].
      change (Ascii.eqb ch_bslash ch_quote) with false. change (Ascii.eqb ch_bslash ch_bslash) with true.
      cbv iota. rewrite E, IH. reflexivity.
    + apply orb_false_iff in E. destruct E as [E1 E2].
      cbn [app parse_string_body]. rewrite E1, E2, Hc, IH. reflexivity.
Qed.

Lemma val_of_dec_zeros (n : nat) (s : str) : val_of_dec (repeat "0"%char n ++ s) = val_of_dec s.
Proof. induction n as [|n IH]; [reflexivity|]. cbn [repeat app]. rewrite val_of_dec_cons, IH. reflexivity. Qed.
Lemma digits_zeros (n : nat) : forallb is_digit (repeat "0"%char n) = true.
Proof. induction n as [|n IH]; [reflexivity|]. cbn [repeat forallb]. now rewrite IH. Qed.
Lemma digits_head (n : N) : exists c t, dec_of_N n = c :: t /\ is_digit c = true.
Proof.
  pose proof (dec_of_N_ne n) as H. pose proof (dec_of_N_digits n) as D.
  destruct (dec_of_N n) as [|c t]; [easy|]. simpl in D. apply andb_true_iff in D. exists c, t. tauto.
Qed.

Lemma extract_int (ip rest : str) :
  forallb is_digit ip = true -> (List.length ip <= 15)%nat -> follows rest ->
  extract_digits (ip ++ rest) = Some (ip, None, rest).
Proof.
  intros Hd Hl Hf. destruct (follows_stops _ Hf) as (S1 & _ & _ & S4).
  unfold extract_digits. rewrite take_while_app, drop_while_app by assumption.
  replace (15 <? N.of_nat (List.length ip))%N with false by lia.
  destruct rest as [|c rest]; [reflexivity|]. destruct S4 as [-> _]. reflexivity.
Qed.
Lemma extract_dec (ip fp rest : str) :
  forallb is_digit ip = true -> forallb is_digit fp = true ->
  (List.length ip <= 12)%nat -> (List.length fp <= 3)%nat -> follows rest ->
  extract_digits (ip ++ "."%char :: fp ++ rest) = Some (ip, Some fp, rest).
Proof.
  intros Hd Hd' Hl Hl' Hf. destruct (follows_stops _ Hf) as (S1 & _ & _ & S4).
  unfold extract_digits.
  assert (S : stops is_digit ("."%char :: fp ++ rest)) by reflexivity.
  rewrite take_while_app, drop_while_app by assumption.
  replace (15 <? N.of_nat (List.length ip))%N with false by lia.
  change (Ascii.eqb "." ".") with true. cbv iota.
  replace (12 <? N.of_nat (List.length ip))%N with false by lia. cbv zeta.
  rewrite take_while_app, drop_while_app by assumption.
  replace (16 <? N.of_nat (List.length ip + 1 + List.length fp))%N with false by lia. reflexivity.
Qed.

(** [parse_bare_item] on something that starts like a number. *)
Lemma parse_bare_number (neg : bool) (c : ascii) (t : str) : is_digit c = true ->
  parse_bare_item ((if neg then $"-" else []) ++ c :: t)
  = parse_number ((if neg then $"-" else []) ++ c :: t).
Proof.
  intro D. destruct (digit_facts c D) as (H1 & H2 & H3 & H4 & H5 & H6).
  destruct neg.
  - reflexivity.
  - cbn [app]. unfold parse_bare_item. rewrite H1, H2, H3, H4, D, H5. reflexivity.
Qed.

Lemma parse_number_sign (neg : bool) (c : ascii) (t : str) : is_digit c = true ->
  parse_number ((if neg then $"-" else []) ++ c :: t)
  = match extract_digits (c :: t) with
    | None => None
    | Some (ip, None, r) =>
        let v := Z.of_N (val_of_dec ip) in
        let v := if neg then (- v)%Z else v in
        if (- sfv_int_max <=? v)%Z && (v <=? sfv_int_max)%Z then Some (BInteger v, r) else None
    | Some (ip, Some fp, r) =>
        match List.length fp with
        | 0%nat => None
        | 1%nat | 2%nat | 3%nat =>
            Some (BDecimal (Dec neg (val_of_dec (ip ++ fp)) (List.length fp)), r)
        | _ => None
        end
    end.
Proof.
  intro D. destruct (digit_facts c D) as (H1 & H2 & H3 & H4 & H5 & H6).
  destruct neg.
  - unfold parse_number. cbn. rewrite D. reflexivity.
  - unfold parse_number. cbn [app]. rewrite H5, D. reflexivity.
Qed.

Lemma dec_of_Z_shape (z : Z) : dec_of_Z z = (if (z <? 0)%Z then $"-" else []) ++ dec_of_N (Z.abs_N z).
Proof.
  unfold dec_of_Z. destruct (z <? 0)%Z eqn:E; simpl; f_equal; f_equal; lia.
Qed.

Lemma parse_ser_integer (z : Z) (t rest : str) :
  ser_integer z = Some t -> follows rest -> parse_bare_item (t ++ rest) = Some (BInteger z, rest).
Proof.
  unfold ser_integer. destruct (_ && _) eqn:E; [|discriminate]. intros H Hf. injection H as <-.
  rewrite dec_of_Z_shape, <- app_assoc.
  destruct (digits_head (Z.abs_N z)) as (c & u & Hc & Dc).
  assert (L : (List.length (dec_of_N (Z.abs_N z)) <= 15)%nat).
  { apply dec_of_N_len; [lia|]. change (N.of_nat 15) with 15%N.
    change (10 ^ 15)%N with 1000000000000000%N. unfold sfv_int_max in E. lia. }
  pose proof (extract_int _ rest (dec_of_N_digits (Z.abs_N z)) L Hf) as X.
  rewrite Hc in *. cbn [app] in *.
  rewrite parse_bare_number, parse_number_sign by exact Dc. rewrite X. rewrite <- Hc, dec_of_N_val.
  cbv zeta. replace (if (z <? 0)%Z then (- Z.of_N (Z.abs_N z))%Z else Z.of_N (Z.abs_N z)) with z
    by (destruct (z <? 0)%Z eqn:F; lia).
  rewrite E. reflexivity.
Qed.

Lemma round3_scale (d : decimal) : (d_scale (round3 d) <= 3)%nat.
Proof.
  unfold round3. destruct (d_scale d <=? 3)%nat eqn:E; [|reflexivity]. now apply Nat.leb_le.
Qed.

Lemma parse_ser_decimal (d : decimal) (t rest : str) :
  ser_decimal d = Some t -> follows rest -> parse_bare_item (t ++ rest) = Some (BDecimal (canon_dec d), rest).
Proof.
  unfold ser_decimal, canon_dec. pose proof (round3_scale d) as Hs.
  destruct (round3 d) as [neg m sc]. cbn [d_scale d_mant d_neg] in *.
  set (u := (10 ^ N.of_nat sc)%N). 
  destruct (12 <? N.of_nat (List.length (dec_of_N (m / u))))%N eqn:L; [discriminate|].
  assert (L' : (List.length (dec_of_N (m / u)) <= 12)%nat) by lia. clear L.
  intros H Hf.
  destruct (digits_head (m / u)) as (c & w & Hc & Dc).
  pose proof (dec_of_N_digits (m / u)) as Di.
  destruct (m mod u =? 0)%N eqn:E.
  - injection H as <-. rewrite <- !app_assoc.
    pose proof (extract_dec (dec_of_N (m / u)) ["0"%char] rest Di eq_refl L' ltac:(simpl; lia) Hf) as X.
    change ($".0" ++ rest) with ("."%char :: ["0"%char] ++ rest).
    rewrite Hc in *. cbn [app] in *.
    rewrite parse_bare_number, parse_number_sign by exact Dc. rewrite X.
    cbn [s2b list_ascii_of_string List.length]. rewrite <- Hc.
    rewrite val_of_dec_app, dec_of_N_val. cbn [List.length].
    change (10 ^ N.of_nat 1)%N with 10%N. change (val_of_dec ["0"%char]) with 0%N.
    replace ((m / u) * 10 + 0)%N with (10 * (m / u))%N by lia. reflexivity.
  - assert (Hu : (u <> 0)%N) by (unfold u; apply N.pow_nonzero; lia).
    assert (Hfp : (m mod u < u)%N) by (apply N.mod_lt; exact Hu).
    assert (Hsc : (sc > 0)%nat).
    { destruct sc; [|lia]. exfalso. apply N.eqb_neq in E. apply E. unfold u.
      change (10 ^ N.of_nat 0)%N with 1%N. apply N.mod_1_r. }
    assert (Lf : (List.length (dec_of_N (m mod u)) <= sc)%nat).
    { apply dec_of_N_len; [exact Hsc|exact Hfp]. }
    assert (Lp : List.length (pad0 sc (dec_of_N (m mod u))) = sc).
    { unfold pad0. rewrite app_length, repeat_length. lia. }
    assert (Dp : forallb is_digit (pad0 sc (dec_of_N (m mod u))) = true).
    { unfold pad0. rewrite forallb_app, digits_zeros. apply dec_of_N_digits. }
    injection H as <-. rewrite <- !app_assoc.
    pose proof (extract_dec (dec_of_N (m / u)) _ rest Di Dp L' ltac:(lia) Hf) as X.
    change ($"." ++ pad0 sc (dec_of_N (m mod u)) ++ rest) with ("."%char :: pad0 sc (dec_of_N (m mod u)) ++ rest).
    rewrite Hc in *. cbn [app] in *.
    rewrite parse_bare_number, parse_number_sign by exact Dc. rewrite X. rewrite Lp.
    rewrite <- Hc, val_of_dec_app, dec_of_N_val, Lp.
    unfold pad0. rewrite val_of_dec_zeros, dec_of_N_val.
    fold u. replace (m / u * u + m mod u)%N with m by (pose proof (N.div_mod' m u); lia).
    destruct sc as [|[|[|[|sc]]]]; try lia; reflexivity.
Qed.

Lemma parse_ser_bare (b : bare) (t rest : str) :
  ser_bare b = Some t -> b <> BToken [] -> follows rest ->
  parse_bare_item (t ++ rest) = Some (canon_bare b, rest).
Proof.
  intros H Hne Hf. destruct b as [d|z|s|bs|b|s]; cbn [ser_bare canon_bare] in *.
  - now apply parse_ser_decimal.
  - now apply parse_ser_integer.
  - unfold ser_string in H. destruct (forallb is_visible s) eqn:V; [|discriminate]. injection H as <-.
    cbn [app]. unfold parse_bare_item. change (Ascii.eqb ch_quote "?") with false.
    change (Ascii.eqb ch_quote ch_quote) with true. cbv iota. rewrite <- app_assoc. cbn [app].
    now rewrite parse_string_escape.
  - injection H as <-. cbn. rewrite <- app_assoc. unfold parse_byteseq_body.
    destruct (b64_encode_chars bs) as [C1 C2].
    replace (split_once ":" (b64_encode bs ++ [":"%char] ++ rest)) with (Some (b64_encode bs, rest))
      by (symmetry; apply split_once_spec; now split).
    now rewrite C1, sfv_b64_decode_encode.
  - injection H as <-. destruct b; reflexivity.
  - unfold ser_token in H. destruct (_ && _) eqn:E; [|discriminate]. injection H as <-.
    apply andb_true_iff in E. destruct E as [E1 E2].
    destruct s as [|c s]; [congruence|].
    destruct (follows_stops _ Hf) as (_ & S2 & _ & _).
    destruct (token_start_facts c E2) as (T1 & T2 & T3 & T4).
    cbn [app]. unfold parse_bare_item. rewrite T1, T2, T3, E2.
    unfold parse_token. rewrite E2. rewrite app_comm_cons.
    now rewrite take_while_app, drop_while_app.
Qed.

(** ** Keys *)
Lemma ser_key_some (k t : str) : ser_key k = Some t ->
  t = k /\ forallb is_key_char k = true /\ match k with c :: _ => is_key_start c = true | [] => True end.
Proof.
  unfold ser_key. destruct (_ && _) eqn:E; [|discriminate]. intro H. injection H as <-.
  apply andb_true_iff in E. destruct E as [E1 E2]. repeat split; auto. destruct k; auto.
Qed.
Lemma parse_ser_key (k t rest : str) :
  ser_key k = Some t -> k <> [] -> stops is_key_char rest -> parse_key (t ++ rest) = Some (k, rest).
Proof.
  intros H Hne Hs. apply ser_key_some in H. destruct H as (-> & H1 & H2).
  destruct k as [|c k]; [easy|]. cbn [app]. unfold parse_key. rewrite H2.
  rewrite app_comm_cons. now rewrite take_while_app, drop_while_app.
Qed.

(** ** Maps *)
Definition keys {V} (m : imap V) : list str := map fst m.

Lemma imap_insert_new {V} (m : imap V) (k : str) (v : V) : ~ In k (keys m) -> imap_insert m k v = m ++ [(k, v)].
Proof.
  induction m as [|[k' v'] m IH]; simpl; intro H; [reflexivity|].
  destruct (str_eqb k' k) eqn:E; [apply str_eqb_eq in E; tauto|]. now rewrite IH by tauto.
Qed.
Lemma imap_insert_keys {V} (m : imap V) (k : str) (v : V) :
  keys (imap_insert m k v) = if existsb (str_eqb k) (keys m) then keys m else keys m ++ [k].
Proof.
  induction m as [|[k' v'] m IH]; simpl; [reflexivity|].
  rewrite (str_eqb_sym k k'). destruct (str_eqb k' k) eqn:E; simpl; [reflexivity|].
  rewrite IH. now destruct (existsb (str_eqb k) (keys m)).
Qed.
Lemma existsb_str_In (k : str) (l : list str) : existsb (str_eqb k) l = true <-> In k l.
Proof.
  rewrite existsb_exists. split.
  - intros (x & Hx & E). apply str_eqb_eq in E. now subst.
  - intro H. exists k. split; [exact H|apply str_eqb_refl].
Qed.
Lemma imap_insert_nodup {V} (m : imap V) (k : str) (v : V) : NoDup (keys m) -> NoDup (keys (imap_insert m k v)).
Proof.
  intro H. rewrite imap_insert_keys. destruct (existsb (str_eqb k) (keys m)) eqn:E; [exact H|].
  assert (N : ~ In k (keys m)) by (intro F; apply existsb_str_In in F; congruence).
  clear E. induction (keys m) as [|x l IH]; simpl; [constructor; [easy|constructor]|].
  inversion H as [|? ? H1 H2]; subst. constructor.
  - rewrite in_app_iff. simpl in *. intros [F|[F|[]]]; [contradiction|]. subst. apply N. now left.
  - apply IH; [exact H2|]. simpl in N. tauto.
Qed.
Lemma imap_insert_in {V} (m : imap V) (k : str) (v : V) (x : str * V) :
  In x (imap_insert m k v) -> In x m \/ x = (k, v).
Proof.
  induction m as [|[k' v'] m IH]; simpl; [intros [<-|[]]; now right|].
  destruct (str_eqb k' k) eqn:E; simpl.
  - apply str_eqb_eq in E. subst. intros [<-|H]; [now right|left; now right].
  - intros [<-|H]; [left; now left|]. destruct (IH H); [left; now right|now right].
Qed.
Lemma imap_get_insert {V} (m : imap V) (k k' : str) (v : V) :
  imap_get (imap_insert m k v) k' = if str_eqb k k' then Some v else imap_get m k'.
Proof.
  induction m as [|[x w] m IH]; simpl; [reflexivity|].
  destruct (str_eqb x k) eqn:E; simpl.
  - apply str_eqb_eq in E. subst. destruct (str_eqb k k'); reflexivity.
  - rewrite IH. destruct (str_eqb x k') eqn:F; [|reflexivity].
    destruct (str_eqb k k') eqn:G; [|reflexivity].
    apply str_eqb_eq in F, G. subst. now rewrite str_eqb_refl in E.
Qed.

(** ** Parameters *)
Definition params_ne (p : params) : Prop :=
  NoDup (keys p) /\ (forall kv, In kv p -> fst kv <> [] /\ snd kv <> BToken []).

Lemma ser_param_shape (kv : str * bare) (a : str) : ser_param kv = Some a -> exists u, a = ";"%char :: u.
Proof.
  unfold ser_param. destruct (ser_key (fst kv)) as [kt|]; [|discriminate].
  destruct (snd kv) as [d|z|s|bs|b|s];
    try (destruct (ser_bare _); [intro H; injection H as <-; eexists; reflexivity|discriminate]).
  destruct b; intro H; injection H as <-; eexists; reflexivity.
Qed.
Lemma ser_params_shape (p : params) (t : str) : ser_params p = Some t -> match t with [] => p = [] | c :: _ => c = ";"%char end.
Proof.
  destruct p as [|kv p]; cbn [ser_params]; intro H; [injection H as <-; reflexivity|].
  destruct (ser_param kv) as [a|] eqn:E; [|discriminate]. destruct (ser_params p); [|discriminate].
  injection H as <-. destruct (ser_param_shape _ _ E) as [u ->]. reflexivity.
Qed.

Lemma parse_ser_params (p : params) (t rest : str) (acc : params) (fuel : nat) :
  ser_params p = Some t -> params_ne p ->
  (forall k, In k (keys p) -> ~ In k (keys acc)) ->
  pends rest -> (List.length t < fuel)%nat ->
  parse_params_loop fuel (t ++ rest) acc = Some (acc ++ canon_params p, rest).
Proof.
  revert t acc fuel. induction p as [|[k v] p IH]; intros t acc fuel H Hne Hd Hp Hfuel.
  - simpl in H. injection H as <-. destruct fuel as [|f]; [lia|]. cbn [app parse_params_loop canon_params map].
    rewrite app_nil_r. destruct rest as [|c rest]; [reflexivity|].
    simpl in Hp. apply pend_follow in Hp. destruct Hp as [_ ->]. reflexivity.
  - cbn [ser_params] in H. destruct (ser_param (k, v)) as [a|] eqn:Ea; [|discriminate].
    destruct (ser_params p) as [b|] eqn:Eb; [|discriminate]. injection H as <-.
    destruct Hne as [Hnd Hne]. pose proof (Hne (k, v) (or_introl eq_refl)) as [Hk Hv]. cbn [fst snd] in *.
    cbn [keys map fst] in Hnd. inversion Hnd as [|? ? Hnk Hnd']; subst.
    assert (Hfb : follows (b ++ rest)).
    { pose proof (ser_params_shape _ _ Eb) as Sb. destruct b as [|c b]; [now apply pends_follows|].
      subst. reflexivity. }
    unfold ser_param in Ea. cbn [fst snd] in Ea. destruct (ser_key k) as [kt|] eqn:Ek; [|discriminate].
    pose proof (ser_key_some _ _ Ek) as (Ekt & K1 & K2).
    assert (Hsp : forall r, skip_sp (kt ++ r) = kt ++ r).
    { intro r. apply drop_while_id. subst kt. destruct k as [|c k]; [easy|]. now apply key_start_char. }
    assert (IHs : forall f, (List.length b < f)%nat ->
              parse_params_loop f (b ++ rest) (imap_insert acc k (canon_bare v))
              = Some (acc ++ canon_params ((k, v) :: p), rest)).
    { intros f Hf. rewrite imap_insert_new by (apply Hd; now left).
      rewrite (IH b (acc ++ [(k, canon_bare v)]) f eq_refl); auto.
      - rewrite <- app_assoc. reflexivity.
      - split; [exact Hnd'|]. intros kv Hin. apply Hne. now right.
      - intros x Hx. unfold keys. rewrite map_app, in_app_iff. simpl. intros [F|[F|[]]].
        + apply (Hd x); [now right|exact F].
        + subst. contradiction. }
    assert (Hval : forall u, a = ";"%char :: kt ++ $"=" ++ u -> ser_bare v = Some u ->
       parse_params_loop fuel ((a ++ b) ++ rest) acc = Some (acc ++ canon_params ((k, v) :: p), rest)).
    { intros u Ha Hu. subst a.
      cbn [app List.length] in Hfuel. rewrite !app_length in Hfuel. cbn [List.length] in Hfuel.
      destruct fuel as [|f]; [lia|].
      cbn [app parse_params_loop]. change (Ascii.eqb ";" ";") with true. cbv iota.
      rewrite <- !app_assoc. rewrite Hsp.
      rewrite (parse_ser_key k kt _ Ek Hk) by reflexivity.
      change ($"=" ++ u ++ b ++ rest) with ("="%char :: u ++ b ++ rest).
      change (Ascii.eqb "=" "=") with true. cbv iota.
      rewrite (parse_ser_bare v u (b ++ rest) Hu Hv Hfb). apply IHs. lia. }
    destruct v as [d|z|s|bs|bb|s];
      try (destruct (ser_bare _) as [u|] eqn:Eu in Ea; [|discriminate]; injection Ea as <-;
           now apply (Hval u)).
    destruct bb.
    + injection Ea as <-. cbn [app List.length] in Hfuel. rewrite app_length in Hfuel.
      destruct fuel as [|f]; [lia|].
      cbn [app parse_params_loop]. change (Ascii.eqb ";" ";") with true. cbv iota.
      rewrite <- !app_assoc. rewrite Hsp.
      destruct (follows_stops _ Hfb) as (_ & _ & S3 & S4).
      rewrite (parse_ser_key k kt _ Ek Hk S3).
      specialize (IHs f ltac:(lia)). cbn [canon_bare] in IHs.
      destruct (b ++ rest) as [|e r] eqn:Ebr; [exact IHs|]. destruct S4 as [_ ->]. exact IHs.
    + injection Ea as <-. now apply (Hval $"?0").
Qed.

Lemma parse_params_ser (p : params) (t rest : str) :
  ser_params p = Some t -> params_ne p -> pends rest -> parse_params (t ++ rest) = Some (canon_params p, rest).
Proof.
  intros H Hne Hp. unfold parse_params.
  rewrite (parse_ser_params p t rest [] _ H Hne); auto. rewrite app_length. lia.
Qed.

(** ** Items *)
Definition item_ne (i : item) : Prop := it_bare i <> BToken [] /\ params_ne (it_params i).

Lemma params_text_follows (p : params) (t rest : str) : ser_params p = Some t -> pends rest -> follows (t ++ rest).
Proof.
  intros H Hp. apply ser_params_shape in H. destruct t as [|c t]; [now apply pends_follows|].
  subst. reflexivity.
Qed.

Lemma parse_ser_item (i : item) (t rest : str) :
  ser_item i = Some t -> item_ne i -> pends rest -> parse_item (t ++ rest) = Some (canon_item i, rest).
Proof.
  unfold ser_item. destruct (ser_bare (it_bare i)) as [a|] eqn:Ea; [|discriminate].
  destruct (ser_params (it_params i)) as [b|] eqn:Eb; [|discriminate].
  intros H [H1 H2] Hp. injection H as <-. unfold parse_item. rewrite <- app_assoc.
  rewrite (parse_ser_bare _ _ _ Ea H1) by (eapply params_text_follows; eassumption).
  rewrite (parse_params_ser _ _ _ Eb H2 Hp). reflexivity.
Qed.

(** The first byte of a bare item is neither a space nor a parenthesis. *)
Definition bare_head (c : ascii) : bool :=
  Ascii.eqb c "?" || Ascii.eqb c ch_quote || Ascii.eqb c ":" || is_token_start c || Ascii.eqb c "-" || is_digit c.
Lemma bare_head_facts (c : ascii) : bare_head c = true ->
  is_sp c = false /\ Ascii.eqb c ")" = false /\ Ascii.eqb c "(" = false /\ is_ows c = false.
Proof.
  assert (E : forallb (fun c => negb (bare_head c)
     || negb (is_sp c || Ascii.eqb c ")" || Ascii.eqb c "(" || is_ows c)) all_bytes = true) by (vm_compute; reflexivity).
  pose proof (byte_all _ E c) as H. cbv beta in H. intro D. rewrite D in H. simpl in H.
  rewrite negb_true_iff, !orb_false_iff in H. tauto.
Qed.
Lemma parse_bare_head (s : str) (x : bare * str) : parse_bare_item s = Some x ->
  exists c s', s = c :: s' /\ bare_head c = true.
Proof.
  destruct s as [|c s]; [discriminate|]. intro H. exists c, s. split; [reflexivity|].
  unfold parse_bare_item in H. unfold bare_head.
  destruct (Ascii.eqb c "?"); [reflexivity|]. destruct (Ascii.eqb c ch_quote); [reflexivity|].
  destruct (Ascii.eqb c ":"); [reflexivity|]. destruct (is_token_start c); [reflexivity|].
  simpl. destruct (Ascii.eqb c "-" || is_digit c); [reflexivity|discriminate].
Qed.
Lemma ser_item_head (i : item) (t : str) : ser_item i = Some t -> item_ne i ->
  exists c t', t = c :: t' /\ bare_head c = true.
Proof.
  intros H Hne. pose proof (parse_ser_item i t [] H Hne I) as P. rewrite app_nil_r in P.
  unfold parse_item in P. destruct (parse_bare_item t) as [x|] eqn:E; [|discriminate].
  eapply parse_bare_head. exact E.
Qed.

(** ** Inner lists *)
Definition inner_ne (l : inner_list) : Prop :=
  (forall i, In i (il_items l) -> item_ne i) /\ params_ne (il_params l).

Lemma parse_ser_inner_loop (its : list item) (ts : list str) (p : params) (pt rest : str)
      (acc : list item) (fuel : nat) :
  ser_items its = Some ts -> (forall i, In i its -> item_ne i) ->
  ser_params p = Some pt -> params_ne p -> pends rest ->
  (List.length (join $" " ts) + 1 < fuel)%nat ->
  parse_inner_loop fuel (join $" " ts ++ ")"%char :: pt ++ rest) acc
  = Some (InnerList (rev acc ++ map canon_item its) (canon_params p), rest)
  /\ (its <> [] -> parse_inner_loop fuel (" "%char :: join $" " ts ++ ")"%char :: pt ++ rest) acc
  = Some (InnerList (rev acc ++ map canon_item its) (canon_params p), rest)).
Proof.
  intros Hs Hne Hpt Hpne Hp. revert ts acc fuel Hs. induction its as [|i its IH]; intros ts acc fuel Hs Hfuel.
  - simpl in Hs. injection Hs as <-. split; [|easy]. destruct fuel as [|f]; [simpl in Hfuel; lia|].
    cbn [join app parse_inner_loop]. change (skip_sp (")"%char :: pt ++ rest)) with (")"%char :: pt ++ rest).
    cbv iota. change (Ascii.eqb ")" ")") with true. cbv iota.
    rewrite (parse_params_ser p pt rest Hpt Hpne Hp). now rewrite app_nil_r.
  - cbn [ser_items] in Hs. destruct (ser_item i) as [a|] eqn:Ea; [|discriminate].
    destruct (ser_items its) as [bs|] eqn:Eb; [|discriminate]. injection Hs as <-.
    assert (Hi : item_ne i) by (apply Hne; now left).
    destruct (ser_item_head i a Ea Hi) as (c & a' & Ha & Hc).
    destruct (bare_head_facts c Hc) as (F1 & F2 & F3 & F4).
    assert (Hne' : forall j, In j its -> item_ne j) by (intros j Hj; apply Hne; now right).
    (* the text after the first item *)
    assert (Step : forall tail, (pends tail) ->
        parse_item (a ++ tail) = Some (canon_item i, tail)).
    { intros tail Ht. now apply parse_ser_item. }
    assert (Key : forall f, (List.length (join $" " (a :: bs)) + 1 < S f)%nat ->
       match parse_item (join $" " (a :: bs) ++ ")"%char :: pt ++ rest) with
       | None => None
       | Some (i0, r) => match r with
                        | d :: _ => if is_sp d || Ascii.eqb d ")" then parse_inner_loop f r (i0 :: acc) else None
                        | [] => None end
       end = Some (InnerList (rev acc ++ map canon_item (i :: its)) (canon_params p), rest)).
    { intros f Hf. destruct bs as [|b bs].
      - cbn [join]. rewrite Step by reflexivity.
        change (is_sp ")" || Ascii.eqb ")" ")") with true. cbv iota.
        destruct its as [|j its]; [|simpl in Eb; destruct (ser_item j), (ser_items its); discriminate].
        cbn [join] in Hf. rewrite Ha in Hf. cbn [List.length] in Hf. destruct f as [|f]; [lia|].
        destruct (IH Hne' [] (canon_item i :: acc) (S f) eq_refl ltac:(cbn; lia)) as [X _].
        cbn [join app] in X. rewrite X. cbn [rev map]. now rewrite <- app_assoc.
      - rewrite join_cons. rewrite <- app_assoc. rewrite Step by reflexivity.
        change (($" " ++ join $" " (b :: bs)) ++ ")"%char :: pt ++ rest)
          with (" "%char :: join $" " (b :: bs) ++ ")"%char :: pt ++ rest).
        change (is_sp " " || Ascii.eqb " " ")") with true. cbv iota.
        assert (Hn : its <> []) by (destruct its; [simpl in Eb; discriminate|easy]).
        rewrite join_cons, !app_length in Hf. change (List.length $" ") with 1%nat in Hf. rewrite Ha in Hf. cbn [List.length] in Hf.
        destruct (IH Hne' (b :: bs) (canon_item i :: acc) f eq_refl ltac:(lia)) as [_ X].
        rewrite (X Hn). cbn [rev map]. now rewrite <- app_assoc. }
    destruct fuel as [|f]; [lia|]. specialize (Key f Hfuel).
    assert (J : exists w, join $" " (a :: bs) = c :: w).
    { rewrite Ha. destruct bs; [eexists; reflexivity|]. rewrite join_cons. eexists. reflexivity. }
    destruct J as [w J]. rewrite J in Key |- *. cbn [app] in Key |- *.
    assert (SK : skip_sp (c :: w ++ ")"%char :: pt ++ rest) = c :: w ++ ")"%char :: pt ++ rest).
    { unfold skip_sp. cbn [drop_while]. now rewrite F1. }
    split.
    + cbn [parse_inner_loop]. rewrite SK, F2. exact Key.
    + intros _. cbn [parse_inner_loop].
      change (skip_sp (" "%char :: c :: w ++ ")"%char :: pt ++ rest)) with (skip_sp (c :: w ++ ")"%char :: pt ++ rest)).
      rewrite SK, F2. exact Key.
Qed.

Lemma ser_inner_parts (l : inner_list) (t : str) : ser_inner_list l = Some t ->
  exists ts pt, ser_items (il_items l) = Some ts /\ ser_params (il_params l) = Some pt
                /\ t = "("%char :: join $" " ts ++ ")"%char :: pt.
Proof.
  unfold ser_inner_list. destruct (ser_items (il_items l)) as [ts|]; [|discriminate].
  destruct (ser_params (il_params l)) as [pt|]; [|discriminate]. intro H. injection H as <-. eauto.
Qed.

Lemma parse_ser_inner (l : inner_list) (t rest : str) :
  ser_inner_list l = Some t -> inner_ne l -> pends rest ->
  parse_list_entry (t ++ rest) = Some (LEInner (canon_inner l), rest).
Proof.
  intros H [H1 H2] Hp. apply ser_inner_parts in H. destruct H as (ts & pt & Es & Ep & ->).
  cbn [app]. unfold parse_list_entry. change (Ascii.eqb "(" "(") with true. cbv iota.
  unfold parse_inner_list_body. rewrite <- app_assoc. cbn [app].
  destruct (parse_ser_inner_loop (il_items l) ts (il_params l) pt rest []
              (S (List.length (join $" " ts ++ ")"%char :: pt ++ rest))) Es H1 Ep H2 Hp) as [X _].
  { rewrite app_length. cbn [List.length]. lia. }
  rewrite X. reflexivity.
Qed.

(** ** ASCII *)
Lemma ascii_of_class (f : ascii -> bool) (s : str) :
  forallb (fun c => negb (f c) || is_ascii_byte c) all_bytes = true ->
  forallb f s = true -> is_ascii s = true.
Proof.
  intros E H. unfold is_ascii. eapply forallb_impl; [|exact H]. intros c Hc.
  pose proof (byte_all _ E c) as X. cbv beta in X. now rewrite Hc in X.
Qed.
Lemma is_ascii_app (a b : str) : is_ascii (a ++ b) = is_ascii a && is_ascii b.
Proof. apply forallb_app. Qed.
Lemma is_ascii_cons (c : ascii) (b : str) : is_ascii (c :: b) = is_ascii_byte c && is_ascii b.
Proof. reflexivity. Qed.

(** Everything printed is printable ASCII. *)
Definition printable (s : str) : bool := forallb is_visible s.
Lemma printable_of_class (f : ascii -> bool) (s : str) :
  forallb (fun c => negb (f c) || is_visible c) all_bytes = true -> forallb f s = true -> printable s = true.
Proof.
  intros E H. unfold printable. eapply forallb_impl; [|exact H]. intros c Hc.
  pose proof (byte_all _ E c) as X. cbv beta in X. now rewrite Hc in X.
Qed.
Lemma printable_app (a b : str) : printable (a ++ b) = printable a && printable b.
Proof. apply forallb_app. Qed.
Lemma printable_cons (c : ascii) (b : str) : printable (c :: b) = is_visible c && printable b.
Proof. reflexivity. Qed.
Lemma printable_dec (n : N) : printable (dec_of_N n) = true.
Proof. apply (printable_of_class is_digit); [vm_compute; reflexivity|apply dec_of_N_digits]. Qed.
Lemma printable_ascii (s : str) : printable s = true -> is_ascii s = true.
Proof. apply ascii_of_class. vm_compute. reflexivity. Qed.
Lemma printable_escape (s : str) : printable s = true -> printable (escape s) = true.
Proof.
  induction s as [|c s IH]; [easy|]. rewrite printable_cons. intro H. apply andb_true_iff in H.
  destruct H as [Hc Hs]. cbn [escape]. destruct (_ || _); rewrite !printable_cons, Hc, IH by exact Hs; reflexivity.
Qed.
Lemma printable_zeros (n : nat) : printable (repeat "0"%char n) = true.
Proof. induction n as [|n IH]; [reflexivity|]. cbn [repeat]. now rewrite printable_cons, IH. Qed.
Lemma printable_ser_bare (b : bare) (t : str) : ser_bare b = Some t -> printable t = true.
Proof.
  destruct b as [d|z|s|bs|b|s]; cbn [ser_bare].
  - unfold ser_decimal. cbv zeta. destruct (12 <? _)%N; [discriminate|].
    destruct (_ =? 0)%N; intro H; injection H as <-; rewrite !printable_app, ?printable_dec;
      destruct (d_neg (round3 d)); unfold pad0; cbn [s2b list_ascii_of_string app]; rewrite ?printable_cons, ?printable_app, ?printable_dec, ?printable_zeros; reflexivity.
  - unfold ser_integer. destruct (_ && _); [|discriminate]. intro H; injection H as <-.
    rewrite dec_of_Z_shape, printable_app, printable_dec. now destruct (z <? 0)%Z.
  - unfold ser_string. destruct (forallb is_visible s) eqn:E; [|discriminate]. intro H; injection H as <-.
    rewrite printable_cons, printable_app, printable_escape by exact E. reflexivity.
  - intro H; injection H as <-. destruct (b64_encode_chars bs) as [C _].
    rewrite printable_cons, printable_app, (printable_of_class is_b64_char) by (exact C || (vm_compute; reflexivity)). reflexivity.
  - intro H; injection H as <-. now destruct b.
  - unfold ser_token. destruct (_ && _) eqn:E; [|discriminate]. intro H; injection H as <-.
    apply andb_true_iff in E. destruct E as [E _]. eapply printable_of_class; [|exact E]. vm_compute; reflexivity.
Qed.
Lemma printable_ser_key (k t : str) : ser_key k = Some t -> printable t = true.
Proof.
  intro H. apply ser_key_some in H. destruct H as (-> & H & _).
  eapply printable_of_class; [|exact H]. vm_compute; reflexivity.
Qed.
Lemma printable_ser_params (p : params) (t : str) : ser_params p = Some t -> printable t = true.
Proof.
  revert t. induction p as [|[k v] p IH]; cbn [ser_params]; intros t H; [injection H as <-; reflexivity|].
  destruct (ser_param (k, v)) as [a|] eqn:Ea; [|discriminate].
  destruct (ser_params p) as [b|] eqn:Eb; [|discriminate]. injection H as <-.
  rewrite printable_app, (IH b eq_refl), andb_true_r.
  unfold ser_param in Ea. cbn [fst snd] in Ea. destruct (ser_key k) as [kt|] eqn:Ek; [|discriminate].
  apply printable_ser_key in Ek.
  assert (G : forall u, ser_bare v = Some u -> printable (";"%char :: kt ++ $"=" ++ u) = true).
  { intros u Hu. apply printable_ser_bare in Hu. now rewrite printable_cons, !printable_app, Ek, Hu. }
  destruct v as [d|z|s|bs|bb|s];
      try (destruct (ser_bare _) as [u|] eqn:Eu in Ea; [|discriminate]; injection Ea as <-; now apply G).
  destruct bb; injection Ea as <-; [now rewrite printable_cons|now apply G].
Qed.
Lemma printable_ser_item (i : item) (t : str) : ser_item i = Some t -> printable t = true.
Proof.
  unfold ser_item. destruct (ser_bare (it_bare i)) as [a|] eqn:Ea; [|discriminate].
  destruct (ser_params (it_params i)) as [b|] eqn:Eb; [|discriminate]. intro H; injection H as <-.
  now rewrite printable_app, (printable_ser_bare _ _ Ea), (printable_ser_params _ _ Eb).
Qed.
Lemma printable_join (ts : list str) : (forall t, In t ts -> printable t = true) -> printable (join $" " ts) = true.
Proof.
  induction ts as [|a ts IH]; intro H; [reflexivity|]. destruct ts as [|b ts]; [apply H; now left|].
  rewrite join_cons, !printable_app. rewrite H by now left. rewrite IH by (intros t Ht; apply H; now right).
  reflexivity.
Qed.
Lemma ser_items_in (its : list item) (ts : list str) : ser_items its = Some ts ->
  forall t, In t ts -> exists i, In i its /\ ser_item i = Some t.
Proof.
  revert ts. induction its as [|i its IH]; simpl; intros ts H t Ht; [injection H as <-; destruct Ht|].
  destruct (ser_item i) as [a|] eqn:Ea; [|discriminate]. destruct (ser_items its) as [bs|]; [|discriminate].
  injection H as <-. destruct Ht as [<-|Ht]; [eauto|]. destruct (IH bs eq_refl t Ht) as (j & Hj & Ej). eauto.
Qed.
Lemma printable_ser_inner (l : inner_list) (t : str) : ser_inner_list l = Some t -> printable t = true.
Proof.
  intro H. apply ser_inner_parts in H. destruct H as (ts & pt & Es & Ep & ->).
  rewrite printable_cons, printable_app, printable_cons, (printable_ser_params _ _ Ep).
  rewrite printable_join; [reflexivity|]. intros t Ht.
  destruct (ser_items_in _ _ Es t Ht) as (i & _ & Ei). now apply printable_ser_item in Ei.
Qed.

(** ** The one-member dictionary *)
Lemma parse_ser_dict1 (k : str) (l : inner_list) (t : str) :
  ser_dict1 k l = Some t -> k <> [] -> inner_ne l ->
  parse_dictionary t = Some [(k, LEInner (canon_inner l))].
Proof.
  unfold ser_dict1. destruct (ser_key k) as [kt|] eqn:Ek; [|discriminate].
  destruct (ser_inner_list l) as [lt|] eqn:El; [|discriminate]. intros H Hk Hl. injection H as <-.
  unfold parse_dictionary.
  rewrite (printable_ascii (kt ++ "="%char :: lt)).
  2: { rewrite printable_app, printable_cons, (printable_ser_key _ _ Ek), (printable_ser_inner _ _ El). reflexivity. }
  pose proof (ser_key_some _ _ Ek) as (Ekt & K1 & K2).
  assert (Hsp : forall r, skip_sp (kt ++ r) = kt ++ r).
  { intro r. apply drop_while_id. subst kt. destruct k as [|c k]; [easy|]. now apply key_start_char. }
  rewrite Hsp. cbn [parse_dict_loop].
  destruct (kt ++ "="%char :: lt) as [|x y] eqn:E; [destruct kt; discriminate|]. rewrite <- E.
  rewrite (parse_ser_key k kt _ Ek Hk) by reflexivity.
  cbn [app]. change (Ascii.eqb "=" "=") with true. cbv iota zeta.
  pose proof (parse_ser_inner l lt [] El Hl I) as P. rewrite app_nil_r in P. rewrite P. reflexivity.
Qed.

Lemma parse_ser_item_field (i : item) (t : str) :
  ser_item i = Some t -> item_ne i -> parse_item_field t = Some (canon_item i).
Proof.
  intros H Hne. unfold parse_item_field. rewrite (printable_ascii t) by now apply printable_ser_item in H.
  destruct (ser_item_head i t H Hne) as (c & t' & -> & Hc).
  unfold skip_sp. rewrite drop_while_id by now apply bare_head_facts.
  pose proof (parse_ser_item i (c :: t') [] H Hne I) as P. rewrite app_nil_r in P. rewrite P. reflexivity.
Qed.
