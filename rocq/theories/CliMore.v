(** Proofs about the command line: order, spelling and position of the options. *)
From Verif Require Import StrFacts HostFacts RunFacts PipeFacts.
From Verif Require Export CliIff.

(** ** Order and spelling *)
Lemma cli_line (md : mode) (w : str) (top sub : list setting) (e : list str) : mode_word md w -> Forall spelled_out top -> Forall spelled_out sub -> closed top ->
  e = [] \/ e = [$"--"] ->
  cli_parse (line top w sub e) = if validate (entries sub) && validate (entries top) then CliRun (opt_of md (entries top) (entries sub)) else CliError.
Proof.
  intros W Ft Fs C E. unfold cli_parse, line.
  destruct (run_level true top Ft [] NNone) as (n & R & S). rewrite R, app_nil_r.
  assert (N : forall q, n <> NOpt q).
  { intros q ->. destruct S as [[_ S] | (b & x & m & -> & S)]; [discriminate S|]. apply Forall_app in Ft. destruct Ft as [_ F].
    inversion F as [|y ys Fx _]; subst. rewrite (closed_state b x m Fx C) in S. discriminate S. }
  cbn [app]. rewrite (run_mode md w _ n _ W N).
  destruct (run_level false sub Fs [] NNone) as (n' & R' & _). rewrite R', app_nil_r.
  assert (X : parse_args false (entries sub) n' e = PEnd (entries sub) n') by (destruct E as [-> | ->]; reflexivity).
  now rewrite X.
Qed.
Lemma entries_perm (a b : list setting) : same_settings a b -> Permutation (entries a) (entries b).
Proof.
  intro P. unfold entries. rewrite <- !Permutation_rev.
  apply (Permutation_map (fun p : opt_name * option str => (fst p, match snd p with Some v => [v] | None => [] end))) in P.
  now rewrite !map_map in P.
Qed.
Lemma hits_perm (o : opt_name) (a b : matches) : Permutation a b -> Permutation (hits o a) (hits o b).
Proof.
  unfold hits. induction 1 as [|x a b P IH|x y a|a b c P IH Q IQ]; cbn.
  - constructor.
  - destruct (opt_name_eqb (fst x) o); [now constructor|exact IH].
  - destruct (opt_name_eqb (fst x) o), (opt_name_eqb (fst y) o); try constructor; apply Permutation_refl.
  - now transitivity (filter (fun e => opt_name_eqb (fst e) o) b).
Qed.
Lemma validate_perm (a b : matches) : Permutation a b -> validate a = validate b.
Proof.
  intro P. assert (Q : forall a b, Permutation a b -> validate a = true -> validate b = true).
  { clear. intros a b P V. apply validate_iff in V. destruct V as [D V]. apply validate_iff. split.
    - apply (Permutation_NoDup (l := map fst a)); [now apply Permutation_map|exact D].
    - intros e I. apply V. apply (Permutation_in (l := b)); [now apply Permutation_sym|exact I]. }
  destruct (validate a) eqn:A, (validate b) eqn:B; auto.
  - now rewrite (Q a b P A) in B.
  - now rewrite (Q b a (Permutation_sym P) B) in A.
Qed.
Lemma hits_valid (o : opt_name) (m : matches) : validate m = true -> hits o m = [] \/ exists e, hits o m = [e].
Proof.
  intro V. apply validate_iff in V. destruct V as [D V]. destruct (in_dec opt_eq_dec o (map fst m)) as [I|I].
  - apply in_map_iff in I. destruct I as (e & <- & I). right. exists e. now apply hits_one.
  - left. now apply hits_none.
Qed.
Lemma hits_same (o : opt_name) (a b : matches) : Permutation a b -> validate a = true -> hits o a = hits o b.
Proof.
  intros P V. pose proof (hits_perm o a b P) as Q. destruct (hits_valid o a V) as [E|(e & E)]; rewrite E in *.
  - now apply Permutation_nil in Q.
  - now apply Permutation_length_1_inv in Q.
Qed.
Lemma opt_of_same (md : mode) (t t' s s' : matches) : (forall o, hits o t = hits o t') -> (forall o, hits o s = hits o s') -> opt_of md t s = opt_of md t' s'.
Proof.
  intros T S. assert (C : forall o, chosen o t s = chosen o t' s') by (intro o; unfold chosen; rewrite !occ_hits, !val_hits, T, S; reflexivity).
  unfold opt_of, value_of. now rewrite !C.
Qed.
Lemma cli_same (md : mode) (w : str) (top top' sub sub' : list setting) (e e' : list str) : mode_word md w ->
  Forall spelled_out top -> Forall spelled_out top' -> Forall spelled_out sub -> Forall spelled_out sub' -> closed top -> closed top' ->
  same_settings top top' -> same_settings sub sub' -> e = [] \/ e = [$"--"] -> e' = [] \/ e' = [$"--"] ->
  cli_parse (line top w sub e) = cli_parse (line top' w sub' e').
Proof.
  intros W Ft Ft' Fs Fs' C C' Pt Ps E E'. rewrite (cli_line md w top sub e), (cli_line md w top' sub' e') by assumption.
  apply entries_perm in Pt. apply entries_perm in Ps. rewrite <- (validate_perm _ _ Pt), <- (validate_perm _ _ Ps).
  destruct (validate (entries sub)) eqn:Vs; [|reflexivity]. destruct (validate (entries top)) eqn:Vt; [|reflexivity]. cbn. f_equal.
  apply opt_of_same; intro o; now apply hits_same.
Qed.

(** ** Before or after the mode *)
Lemma entries_app (a b : list setting) : entries (a ++ b) = entries b ++ entries a.
Proof. unfold entries. now rewrite map_app, rev_app_distr. Qed.
Lemma nodup_parts {A} (a b : list A) : NoDup (a ++ b) -> NoDup a /\ NoDup b.
Proof.
  induction a as [|x a IH]; intro D; [split; [constructor|exact D]|]. cbn in D. inversion D as [|y l H H']; subst. destruct (IH H') as [Ha Hb].
  split; [|exact Hb]. constructor; [|exact Ha]. intro I. apply H, in_or_app. now left.
Qed.
Lemma cli_position (md : mode) (w : str) (top sub : list setting) (e : list str) : mode_word md w ->
  Forall spelled_out top -> Forall spelled_out sub -> closed top -> (forall x y, In x top -> In y sub -> s_name x <> s_name y) -> e = [] \/ e = [$"--"] ->
  cli_parse (line top w sub e) = cli_parse (line [] w (top ++ sub) e).
Proof.
  intros W Ft Fs C N E. rewrite (cli_line md w top sub e) by assumption.
  rewrite (cli_line md w [] (top ++ sub) e W (Forall_nil _)); [|now apply Forall_app|intros b x Q; destruct b; discriminate Q|exact E].
  change (validate (entries [])) with true. rewrite andb_true_r, entries_app.
  assert (V : validate (entries sub ++ entries top) = validate (entries sub) && validate (entries top)).
  { apply eq_true_iff_eq. rewrite andb_true_iff, !validate_iff, map_app. split.
    - intros [D V]. split; (split; [|intros e' I; apply V, in_or_app; auto]).
      + now apply nodup_parts in D.
      + now apply nodup_parts in D.
    - intros [[D1 V1] [D2 V2]]. split.
      + rewrite !entries_names, <- rev_app_distr. apply NoDup_rev. rewrite <- map_app.
        assert (D1' : NoDup (map s_name sub)) by now apply entries_nodup. assert (D2' : NoDup (map s_name top)) by now apply entries_nodup.
        rewrite map_app. clear - N D1' D2'. induction top as [|x top IH]; [exact D1'|]. cbn in *. inversion D2' as [|y l H H']; subst. constructor.
        * intro I. apply in_app_or in I. destruct I as [I|I]; [now apply H|]. apply in_map_iff in I. destruct I as (y & Ey & I). apply (N x y); auto.
        * apply IH; auto.
      + intros e' I. apply in_app_or in I. destruct I; auto. }
  rewrite V. destruct (validate (entries sub)) eqn:Vs; [|reflexivity]. destruct (validate (entries top)) eqn:Vt; [|reflexivity]. cbn. f_equal.
  assert (Ch : forall o, chosen o (entries top) (entries sub) = chosen o [] (entries sub ++ entries top)).
  { intro o. unfold chosen. rewrite !occ_hits, !val_hits, hits_app. change (hits o []) with (@nil (opt_name * list str)).
    destruct (hits o (entries sub)) as [|h hs] eqn:H.
    - cbn [app]. destruct (hits o (entries top)); reflexivity.
    - destruct (hits o (entries top)) as [|g gs] eqn:G; [now rewrite app_nil_r|]. exfalso.
      assert (I1 : In h (hits o (entries sub))) by (rewrite H; now left). assert (I2 : In g (hits o (entries top))) by (rewrite G; now left).
      apply filter_In in I1, I2. destruct I1 as [I1 E1], I2 as [I2 E2]. apply opt_eqb_iff in E1, E2. apply entries_in in I1, I2.
      destruct I1 as (x & I1 & <-), I2 as (y & I2 & <-). cbn in E1, E2. apply (N y x); auto; congruence. }
  unfold opt_of, value_of. now rewrite !Ch.
Qed.

(** ** The README *)
Definition short_setting (o : opt_name) (v : str) : setting := Setting o (Some v) [["-"%char; short_of o]; v].
Lemma short_setting_ok (o : opt_name) (v : str) : separate v -> spelled_out (short_setting o v).
Proof. intro S. apply spelled_apart; [apply (switch_short _ _ (long_of o)); now apply names_fun|exact S]. Qed.
Lemma readme_sign (hs a k p : str) : separate hs -> separate a -> separate k -> separate p ->
  cli_parse (sign_args hs a k p) = CliRun (Opt MSign None (Some (Some hs)) (Some k) (Some p) None (Some $"sig") (Some a) None None None).
Proof.
  intros Hh Ha Hk Hp. change (sign_args hs a k p) with
    (line [] $"sign" [short_setting OLabel $"sig"; short_setting OHeaders hs; short_setting OAlgorithm a; short_setting OKeyId k; short_setting OPrivateKey p] []).
  rewrite (cli_line MSign $"sign"); [reflexivity|constructor|constructor| |intros b x Q; destruct b; discriminate Q|now left].
  repeat (apply Forall_cons; [|]); [| | | | |constructor].
  - apply (short_setting_ok OLabel $"sig"). right. discriminate.
  - now apply (short_setting_ok OHeaders).
  - now apply (short_setting_ok OAlgorithm).
  - now apply (short_setting_ok OKeyId).
  - now apply (short_setting_ok OPrivateKey).
Qed.
Lemma readme_verify (a k u : str) : separate a -> separate k -> separate u ->
  cli_parse (verify_args a k u) = CliRun (Opt MVerify None None (Some k) None (Some u) None (Some a) None None None).
Proof.
  intros Ha Hk Hu. change (verify_args a k u) with
    (line [] $"verify" [short_setting OAlgorithm a; short_setting OKeyId k; short_setting OPublicKey u] []).
  rewrite (cli_line MVerify $"verify"); [reflexivity|constructor|constructor| |intros b x Q; destruct b; discriminate Q|now left].
  repeat (apply Forall_cons; [|]); [| | |constructor].
  - now apply (short_setting_ok OAlgorithm).
  - now apply (short_setting_ok OKeyId).
  - now apply (short_setting_ok OPublicKey).
Qed.

(** ** Every configuration can be given *)
Definition give (o : opt_name) (v : str) : list setting :=
  [match v with
   | "-"%char :: _ => Setting o (Some v) [$"--" ++ long_of o ++ $"=" ++ v]
   | _ => Setting o (Some v) [["-"%char; short_of o]; v]
   end].
Lemma give_ok (o : opt_name) (v : str) : Forall spelled_out (give o v) /\ map s_name (give o v) = [o] /\ (forall x, In x (give o v) -> s_value x = Some v).
Proof.
  unfold give. assert (S : (exists t, v = "-"%char :: t) \/ forall t, v <> "-"%char :: t).
  { destruct v as [|c t]; [right; discriminate|]. destruct (Ascii.eqb_spec c "-") as [-> | D]; [left; now exists t|right; congruence]. }
  destruct S as [(t & ->) | S].
  - split; [|split; [reflexivity|intros x [<- | []]; reflexivity]]. constructor; [|constructor].
    apply (spelled_long o (short_of o) (long_of o) [] [] ("-"%char :: t)); [now apply names_fun|constructor|constructor|discriminate].
  - assert (X : match v with "-"%char :: _ => Setting o (Some v) [$"--" ++ long_of o ++ $"=" ++ v] | _ => Setting o (Some v) [["-"%char; short_of o]; v] end
                = Setting o (Some v) [["-"%char; short_of o]; v]).
    { destruct v as [|c t]; [reflexivity|]. destruct c as [[] [] [] [] [] [] [] []]; try reflexivity. now destruct (S t). }
    rewrite X. split; [|split; [reflexivity|intros x [<- | []]; reflexivity]]. constructor; [|constructor].
    apply spelled_apart; [apply (switch_short _ _ (long_of o)); now apply names_fun|now right].
Qed.
Definition give_opt (o : opt_name) (v : option str) : list setting := match v with Some v => give o v | None => [] end.
Definition give_headers (h : option (option str)) : list setting :=
  match h with None => [] | Some None => [Setting OHeaders None [$"-d"]] | Some (Some v) => give OHeaders v end.
Definition int_text (z : Z) : str := if (z <? 0)%Z then $"-" ++ dec_of_N (Z.to_N (- z)) else dec_of_N (Z.to_N z).
Lemma int_text_integer (z : Z) : (- 2 ^ 63 <= z < 2 ^ 63)%Z -> integer (int_text z) z.
Proof.
  intro B. unfold int_text. destruct (Z.ltb_spec z 0) as [L|L].
  - exists $"-", (dec_of_N (Z.to_N (- z))), (Z.to_N (- z)). split; [reflexivity|]. split; [apply dec_of_N_ne|]. split; [apply dec_numeral|]. split; [|exact B].
    left. split; [reflexivity|]. rewrite Z2N.id by lia. lia.
  - exists [], (dec_of_N (Z.to_N z)), (Z.to_N z). split; [reflexivity|]. split; [apply dec_of_N_ne|]. split; [apply dec_numeral|]. split; [|exact B].
    right. split; [now right|]. now rewrite Z2N.id.
Qed.

Definition give_all (o : opt) : list setting :=
  give_opt OIn (op_in_file o) ++ give_headers (op_headers o) ++ give_opt OKeyId (op_key_id o) ++ give_opt OPrivateKey (op_private_key o)
  ++ give_opt OPublicKey (op_public_key o) ++ give_opt OLabel (op_label o) ++ give_opt OAlgorithm (op_algorithm o)
  ++ give_opt OCreated (option_map int_text (op_created o)) ++ give_opt OExpires (option_map int_text (op_expires o)) ++ give_opt ONonce (op_nonce o).
Definition range_ok (o : opt_name) (l : list setting) : Prop :=
  Forall spelled_out l /\ (l = [] \/ exists x, l = [x] /\ s_name x = o).
Lemma give_opt_range (o : opt_name) (v : option str) : range_ok o (give_opt o v).
Proof.
  destruct v as [v|]; [|split; [constructor|now left]]. destruct (give_ok o v) as (F & N & _). split; [exact F|]. right. unfold give_opt, give in *. cbn in N.
  eexists. split; [reflexivity|]. now injection N.
Qed.
Lemma give_headers_range (h : option (option str)) : range_ok OHeaders (give_headers h).
Proof.
  destruct h as [[v|]|]; [apply (give_opt_range OHeaders (Some v))| |split; [constructor|now left]]. split.
  - constructor; [|constructor]. apply spelled_bare, (switch_short _ "d" $"headers"). constructor.
  - right. now eexists.
Qed.
Lemma hits_range (o o' : opt_name) (l : list setting) : range_ok o l -> o <> o' -> hits o' (entries l) = [].
Proof.
  intros [_ [-> | (x & -> & <-)]] D; [reflexivity|]. apply hits_none. rewrite names_in_entries. cbn. intros [E|[]]. now apply D.
Qed.
Lemma hits_give (o : opt_name) (v : option str) : hits o (entries (give_opt o v)) = match v with Some v => [(o, [v])] | None => [] end.
Proof.
  destruct v as [v|]; [|reflexivity]. destruct (give_ok o v) as (_ & N & V). unfold give_opt, give in *. set (x := match v with "-"%char :: _ => _ | _ => _ end) in *.
  cbn in N. injection N as N. unfold entries. cbn [map rev app]. unfold entry. rewrite N, (V x (or_introl eq_refl)). cbn. now rewrite opt_eqb_refl.
Qed.
Lemma hits_give_headers (h : option (option str)) : hits OHeaders (entries (give_headers h)) = match h with None => [] | Some None => [(OHeaders, [])] | Some (Some v) => [(OHeaders, [v])] end.
Proof. destruct h as [[v|]|]; try reflexivity. apply (hits_give OHeaders (Some v)). Qed.
Lemma hits_all (o : opt) (n : opt_name) : hits n (entries (give_all o)) =
  match n with
  | OHeaders => match op_headers o with None => [] | Some None => [(OHeaders, [])] | Some (Some v) => [(OHeaders, [v])] end
  | _ => match (match n with OIn => op_in_file o | OHeaders => None | OKeyId => op_key_id o | OPrivateKey => op_private_key o | OPublicKey => op_public_key o
                | OLabel => op_label o | OAlgorithm => op_algorithm o | OCreated => option_map int_text (op_created o) | OExpires => option_map int_text (op_expires o)
                | ONonce => op_nonce o end) with Some v => [(n, [v])] | None => [] end
  end.
Proof.
  unfold give_all. rewrite !entries_app, !hits_app.
  destruct n;
    repeat match goal with
      | |- context [hits ?a (entries (give_opt ?b ?v))] =>
          lazymatch a with b => fail | _ => rewrite (hits_range b a _ (give_opt_range b v)) by discriminate end
      | |- context [hits ?a (entries (give_headers ?v))] =>
          lazymatch a with OHeaders => fail | _ => rewrite (hits_range OHeaders a _ (give_headers_range v)) by discriminate end
      end; cbn [app]; rewrite ?app_nil_r, ?hits_give_headers, ?hits_give; reflexivity.
Qed.
Lemma cli_every (o : opt) : (forall z, op_created o = Some z -> (- 2 ^ 63 <= z < 2 ^ 63)%Z) -> (forall z, op_expires o = Some z -> (- 2 ^ 63 <= z < 2 ^ 63)%Z) ->
  exists args, cli_parse args = CliRun o.
Proof.
  intros Bc Be. assert (W : exists w, mode_word (op_mode o) w) by (destruct (op_mode o); eexists; constructor). destruct W as (w & W).
  exists (line [] w (give_all o) []). rewrite (cli_line (op_mode o) w [] (give_all o) []); auto.
  - change (validate (entries [])) with true. rewrite andb_true_r.
    assert (I64 : forall z, (- 2 ^ 63 <= z < 2 ^ 63)%Z -> i64_from_str (int_text z) = Some z) by (intros z B; now apply integer_iff, int_text_integer).
    assert (V : validate (entries (give_all o)) = true).
    { apply validate_iff. split.
      - apply hits_nodup. intro n. rewrite hits_all. destruct n; try (destruct (op_headers o) as [[|]|]; cbn; lia);
          match goal with |- context [match ?x with Some _ => _ | None => _ end] => destruct x; cbn; lia end.
      - intros e I. assert (J : In e (hits (fst e) (entries (give_all o)))) by (apply filter_In; split; [exact I|apply opt_eqb_refl]). rewrite hits_all in J.
        destruct (fst e) eqn:Fe; try (match goal with H : In _ (match ?x with Some _ => _ | None => _ end) |- _ => destruct x; [destruct H as [<- | []]; reflexivity|destruct H] end).
        + destruct (op_headers o) as [[v|]|]; [destruct J as [<- | []]|destruct J as [<- | []]|destruct J]; reflexivity.
        + destruct (op_created o) as [z|]; [|destruct J]. cbn in J. destruct J as [<- | []]. cbn [snd values_ok forallb]. now rewrite (I64 z (Bc z eq_refl)).
        + destruct (op_expires o) as [z|]; [|destruct J]. cbn in J. destruct J as [<- | []]. cbn [snd values_ok forallb]. now rewrite (I64 z (Be z eq_refl)). }
    rewrite V. f_equal.
    assert (C : forall n, chosen n (entries []) (entries (give_all o)) = match hits n (entries (give_all o)) with [] => None | l => Some (hd_error (List.concat (map snd l))) end).
    { intro n. unfold chosen. rewrite !occ_hits, !val_hits. change (hits n (entries [])) with (@nil (opt_name * list str)). now destruct (hits n (entries (give_all o))). }
    unfold opt_of, value_of. rewrite !C, !hits_all. destruct o as [om oi oh ok op ou ol oa oc oe on]. cbn [op_mode op_in_file op_headers op_key_id op_private_key op_public_key op_label op_algorithm op_created op_expires op_nonce] in *.
    f_equal.
    + now destruct oi.
    + now destruct oh as [[|]|].
    + now destruct ok.
    + now destruct op.
    + now destruct ou.
    + now destruct ol.
    + now destruct oa.
    + destruct oc as [z|]; [|reflexivity]. cbn [option_map opt_bind map snd List.concat app hd_error]. exact (I64 z (Bc z eq_refl)).
    + destruct oe as [z|]; [|reflexivity]. cbn [option_map opt_bind map snd List.concat app hd_error]. exact (I64 z (Be z eq_refl)).
    + now destruct on.
  - unfold give_all. repeat (apply Forall_app; split); try apply give_opt_range. apply give_headers_range.
  - intros b x Q. destruct b; discriminate Q.
Qed.

(** ** Values that start with a hyphen, and --headers before the mode *)
Definition kept (e : opt_name * list str) (m : matches) (n : needs) : Prop := In e (tl m) \/ In e m /\ forall o, n <> NOpt o.
Lemma kept_in (e : opt_name * list str) (m : matches) (n : needs) : kept e m n -> In e m.
Proof. intros [I|[I _]]; [|exact I]. destruct m; [exact I|now right]. Qed.
Lemma parse_keeps (top : bool) (e : opt_name * list str) (args : list str) : forall m n, kept e m n ->
  match parse_args top m n args with PEnd m' _ => In e m' | PMode _ m' _ => In e m' | _ => True end.
Proof.
  induction args as [|a args IH]; intros m n K; [now apply kept_in in K|]. cbn [parse_args]. destruct (str_eqb a $"--").
  { destruct args; [now apply kept_in in K|exact I]. }
  cbv zeta. destruct (top && negb match n with NOpt _ => true | _ => false end && str_eqb a $"help").
  { destruct args as [|x [|y args]]; cbn [help_command]; auto. now destruct (_ || _). }
  destruct (if top && negb match n with NOpt _ => true | _ => false end then mode_of a else None) as [md|]; [now apply kept_in in K|].
  destruct (looks_new a).
  - destruct (if starts_with $"--" a then long_arg a else short_arg a) as [o val| |]; auto. apply kept_in in K.
    destruct val as [v|]; cbn [parse_opt]; apply IH; left; exact K.
  - destruct n as [|o|]; auto. apply IH. destruct K as [K|[_ K]]; [|now destruct (K o)]. left. now destruct m as [|[o' vs] m].
Qed.
Lemma invalid_in (e : opt_name * list str) (m : matches) : In e m -> values_ok (fst e) (snd e) = false -> validate m = false.
Proof.
  intros I V. destruct (validate m) eqn:E; [|reflexivity]. apply validate_iff in E. destruct E as [_ E]. rewrite (E e I) in V. discriminate V.
Qed.
(** The option without a value, then an argument that is none. *)
Lemma no_value (top : bool) (m : matches) (n : needs) (o : opt_name) (f v : str) (rest : list str) : switch o f -> ~ separate v ->
  match parse_args top m n (f :: v :: rest) with PEnd m' _ => In (o, []) m' | PMode _ m' _ => In (o, []) m' | _ => True end.
Proof.
  intros S V. destruct (switch_new o f S) as [L D]. rewrite (step_new top m n f _ o None L D (switch_kind o f S)). cbn [parse_opt fst snd].
  assert (L' : looks_new v = true) by (destruct (looks_new v) eqn:Q; [reflexivity|now apply separate_iff in Q]).
  cbn [parse_args]. destruct (str_eqb v $"--"); [destruct rest; [now left|exact I]|]. cbn [negb]. rewrite andb_false_r. cbn [andb]. rewrite L'.
  destruct (if starts_with $"--" v then long_arg v else short_arg v) as [o' val| |]; auto.
  destruct val as [x|]; cbn [parse_opt]; apply parse_keeps; left; now left.
Qed.
Lemma cli_no_value (md : mode) (w : str) (top sub : list setting) (o : opt_name) (f v : str) (rest : list str) (r : opt) : mode_word md w ->
  Forall spelled_out top -> Forall spelled_out sub -> closed top -> switch o f -> o <> OHeaders -> ~ separate v ->
  cli_parse (line top w sub (f :: v :: rest)) <> CliRun r.
Proof.
  intros W Ft Fs C S H V. unfold cli_parse, line.
  destruct (run_level true top Ft [] NNone) as (n & R & Q). rewrite R, app_nil_r.
  assert (N : forall q, n <> NOpt q).
  { intros q ->. destruct Q as [[_ Q] | (b & x & m & -> & Q)]; [discriminate Q|]. apply Forall_app in Ft. destruct Ft as [_ F].
    inversion F as [|y ys Fx _]; subst. rewrite (closed_state b x m Fx C) in Q. discriminate Q. }
  cbn [app]. rewrite (run_mode md w _ n _ W N).
  destruct (run_level false sub Fs [] NNone) as (n' & R' & _). rewrite R', app_nil_r.
  pose proof (no_value false (entries sub) n' o f v rest S V) as K. destruct (parse_args false (entries sub) n' (f :: v :: rest)) as [m' n2| | |]; try discriminate.
  rewrite (invalid_in (o, []) m' K); [discriminate|]. cbn. destruct o; try reflexivity. congruence.
Qed.
(** --headers takes two words. *)
Lemma values_grow (top : bool) (args : list str) : forall m n, (2 <= List.length (values_of OHeaders m))%nat ->
  match parse_args top m n args with PEnd m' _ | PMode _ m' _ => (2 <= List.length (values_of OHeaders m'))%nat | _ => True end.
Proof.
  induction args as [|a args IH]; intros m n K; [exact K|]. cbn [parse_args]. destruct (str_eqb a $"--"); [now destruct args|].
  cbv zeta. destruct (top && negb match n with NOpt _ => true | _ => false end && str_eqb a $"help").
  { destruct args as [|x [|y args]]; cbn [help_command]; auto. now destruct (_ || _). }
  destruct (if top && negb match n with NOpt _ => true | _ => false end then mode_of a else None) as [md|]; [exact K|].
  assert (G : forall o vs, (2 <= List.length (values_of OHeaders ((o, vs) :: m)))%nat).
  { intros o vs. rewrite val_hits in *. cbn. destruct (opt_name_eqb o OHeaders); [|exact K]. cbn. rewrite app_length. fold (hits OHeaders m). lia. }
  destruct (looks_new a).
  - destruct (if starts_with $"--" a then long_arg a else short_arg a) as [o val| |]; auto. destruct val as [v|]; cbn [parse_opt]; apply IH, G.
  - destruct n as [|o|]; auto. apply IH. destruct m as [|[o' vs] m]; [exact K|]. cbn [add_value]. rewrite val_hits in *. cbn in *.
    destruct (opt_name_eqb o' OHeaders); [|exact K]. cbn in *. rewrite !app_length in *. cbn. lia.
Qed.
Lemma cli_two_words (top : list setting) (f v w : str) (rest : list str) (r : opt) : Forall spelled_out top -> switch OHeaders f -> separate v -> separate w ->
  cli_parse (words top ++ f :: v :: w :: rest) <> CliRun r.
Proof.
  intros Ft S V W. unfold cli_parse. destruct (run_level true top Ft [] NNone) as (n & R & _). rewrite R, app_nil_r.
  destruct (switch_new _ f S) as [L D]. rewrite (step_new true _ n f _ OHeaders None L D (switch_kind _ f S)). cbn [parse_opt fst snd].
  rewrite (step_value true _ OHeaders v _ V). cbn [add_value app].
  assert (B : forall md m rest', (2 <= List.length (values_of OHeaders m))%nat ->
    match parse_args false [] NNone rest' with PEnd m' _ => if validate m' && validate m then CliRun (opt_of md m m') else CliError | PInfo => CliInfo | PMode _ _ _ | PFail => CliError end <> CliRun r).
  { intros md m rest' K. destruct (parse_args false [] NNone rest') as [m' n'| | |]; try discriminate. destruct (validate m) eqn:E; [|rewrite andb_false_r; discriminate].
    exfalso. destruct (hits_valid OHeaders m E) as [H|(e & H)]; rewrite val_hits, H in K; [cbn in K; lia|].
    apply validate_iff in E. destruct E as [_ E]. assert (I : In e (hits OHeaders m)) by (rewrite H; now left). apply filter_In in I. destruct I as [I Q]. apply opt_eqb_iff in Q.
    specialize (E e I). rewrite Q in E. cbn in E, K. rewrite app_nil_r in K. apply Nat.leb_le in E. lia. }
  assert (P : forall m n', (2 <= List.length (values_of OHeaders m))%nat -> match parse_args true m n' rest with
     | PMode md m rest => match parse_args false [] NNone rest with PEnd m' _ => if validate m' && validate m then CliRun (opt_of md m m') else CliError | PInfo => CliInfo | PMode _ _ _ | PFail => CliError end
     | PInfo => CliInfo | PEnd _ _ | PFail => CliError end <> CliRun r).
  { intros m n' K. pose proof (values_grow true rest m n' K) as G. destruct (parse_args true m n' rest) as [|md m' rest'| |]; try discriminate. now apply B. }
  destruct (needs_more OHeaders ((OHeaders, [v]) :: entries top)) eqn:NM.
  - rewrite (step_value true _ OHeaders w _ W). apply P. cbn [add_value app]. rewrite val_hits. cbn. lia.
  - unfold needs_more in NM. apply negb_false_iff, Nat.ltb_lt in NM.
    pose proof (values_grow true (w :: rest) _ NDone NM) as G. destruct (parse_args true ((OHeaders, [v]) :: entries top) NDone (w :: rest)) as [|md m' rest'| |]; try discriminate.
    now apply B.
Qed.
Lemma readme_pipeline (w : world) (hs a k p u stdin t : str) (se se' : sign_env) (ve ve' : verify_env)
  (os := Opt MSign None (Some (Some hs)) (Some k) (Some p) None (Some $"sig") (Some a) None None None)
  (ov := Opt MVerify None None (Some k) None (Some u) None (Some a) None None None) :
  separate hs -> separate a -> separate k -> separate p -> separate u ->
  program w (sign_args hs a k p) stdin se ve = EndRun (Done (Ok t)) ->
  key_pair w os ov (se_rnd se) -> sys_clock_ok (se_sys se) -> sys_clock_ok (ve_sys ve') ->
  (forall cs q, given os (Some cs) -> In q cs -> ~ signature_header q) ->
  (forall r, run_request w os stdin r -> honest_digest r) ->
  program w (verify_args a k u) t se' ve' = EndRun (Done (Ok [])).
Proof.
  intros Hh Ha Hk Hp Hu P K C C' G D. unfold program in *. rewrite (readme_sign hs a k p Hh Ha Hk Hp) in P. rewrite (readme_verify a k u Ha Hk Hu).
  injection P as P. f_equal. apply (pipe w os ov stdin t se se' ve ve'); auto; try reflexivity; discriminate.
Qed.
