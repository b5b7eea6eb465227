(** Proofs about the command line: [cli_parse] reads exactly the command lines. *)
From Verif Require Import StrFacts HostFacts.
From Verif Require Export CliLevel.

(** ** Values *)
Lemma chosen_iff (top sub : list setting) (o : opt_name) (r : option (option str)) : NoDup (map s_name top) -> NoDup (map s_name sub) ->
  (set_to top sub o r <-> chosen o (entries top) (entries sub) = r).
Proof.
  intros Nt Ns. apply entries_nodup in Nt. apply entries_nodup in Ns.
  assert (V : forall l x, NoDup (map fst (entries l)) -> In x l -> occurrences (s_name x) (entries l) = 1%nat /\ hd_error (values_of (s_name x) (entries l)) = s_value x).
  { intros l x N I. assert (J : In (entry x) (entries l)) by (apply entries_in; now exists x).
    pose proof (hits_one _ _ N J) as H. cbn [fst entry] in H. rewrite occ_hits, val_hits, H. split; [reflexivity|]. cbn. now destruct (s_value x). }
  assert (Z : forall l, ~ In o (map s_name l) <-> occurrences o (entries l) = O).
  { intro l. rewrite <- names_in_entries, occ_hits. split.
    - intro H. now rewrite (hits_none _ _ H).
    - intros H I. apply in_map_iff in I. destruct I as (e & <- & I). assert (J : In e (hits (fst e) (entries l))) by (apply filter_In; split; [exact I|apply opt_eqb_refl]).
      destruct (hits (fst e) (entries l)); [destruct J|discriminate H]. }
  unfold chosen. split.
  - intros [x I <- |x H I <- |H1 H2].
    + destruct (V sub x Ns I) as [-> ->]. reflexivity.
    + apply Z in H. rewrite H. destruct (V top x Nt I) as [-> ->]. reflexivity.
    + apply Z in H1. apply Z in H2. now rewrite H1, H2.
  - intros <-. destruct (in_dec opt_eq_dec o (map s_name sub)) as [I|I].
    + apply in_map_iff in I. destruct I as (x & <- & I). destruct (V sub x Ns I) as [-> ->]. now apply set_after.
    + destruct (in_dec opt_eq_dec o (map s_name top)) as [J|J].
      * pose proof I as I'. apply Z in I'. rewrite I'. apply in_map_iff in J. destruct J as (x & <- & J). destruct (V top x Nt J) as [-> ->]. now apply set_before.
      * pose proof I as I'. pose proof J as J'. apply Z in I'. apply Z in J'. rewrite I', J'. now apply set_not.
Qed.
Lemma has_value (x : setting) : spelled_out x -> s_name x <> OHeaders -> exists v, s_value x = Some v.
Proof. intros S N. destruct S as [o f v| | |f]; [exists v; reflexivity|exists v; reflexivity|exists v; reflexivity|now destruct N]. Qed.
Lemma set_value (top sub : list setting) (o : opt_name) (r : option str) : Forall spelled_out top -> Forall spelled_out sub -> o <> OHeaders ->
  set_to top sub o (Some r) -> exists v, r = Some v.
Proof.
  intros Ft Fs H S. inversion S as [x I E|x _ I E|]; subst; rewrite Forall_forall in Ft, Fs; eauto using has_value.
Qed.
Lemma text_iff (top sub : list setting) (o : opt_name) (r : option str) : level top -> level sub -> o <> OHeaders ->
  (set_text top sub o r <-> value_of o (entries top) (entries sub) = r).
Proof.
  intros (Ft & Nt & _) (Fs & Ns & _) H. unfold set_text, value_of, opt_bind. pose proof (chosen_iff top sub o (chosen o (entries top) (entries sub)) Nt Ns) as C.
  assert (C0 : set_to top sub o (chosen o (entries top) (entries sub))) by now apply C.
  destruct (chosen o (entries top) (entries sub)) as [x|] eqn:E.
  - destruct (set_value top sub o x Ft Fs H C0) as (v & ->). split.
    + destruct r as [w|]; intro S; apply chosen_iff in S; auto; congruence.
    + intros <-. exact C0.
  - split.
    + destruct r as [w|]; intro S; apply chosen_iff in S; auto; congruence.
    + intros <-. exact C0.
Qed.
Lemma time_iff (top sub : list setting) (o : opt_name) (r : option Z) : level top -> level sub -> o = OCreated \/ o = OExpires ->
  (set_time top sub o r <-> opt_bind (value_of o (entries top) (entries sub)) i64_from_str = r).
Proof.
  intros Lt Ls H. assert (D : o <> OHeaders) by (destruct H as [-> | ->]; discriminate). unfold set_time.
  assert (T : forall v, set_to top sub o (Some (Some v)) -> exists z, integer v z).
  { destruct Lt as (_ & _ & Tt), Ls as (_ & _ & Ts). intros v S. inversion S as [x I E V|x _ I E V|]; subst; [apply (Ts x v)|apply (Tt x v)]; auto. }
  destruct r as [z|].
  - split.
    + intros (v & S & I). assert (E : value_of o (entries top) (entries sub) = Some v) by (apply (text_iff top sub o (Some v)); auto).
      rewrite E. cbn. now apply integer_iff.
    + destruct (value_of o (entries top) (entries sub)) as [v|] eqn:E; [|discriminate]. cbn. intro I. exists v. split; [|now apply integer_iff].
      now apply (text_iff top sub o (Some v)).
  - change (set_to top sub o None) with (set_text top sub o None). rewrite (text_iff top sub o None Lt Ls D).
    destruct (value_of o (entries top) (entries sub)) as [v|] eqn:E; cbn; [|tauto]. split; [discriminate|].
    intro F. destruct (T v) as (z & I); [now apply (text_iff top sub o (Some v))|]. apply integer_iff in I. congruence.
Qed.
Lemma options_iff (md : mode) (top sub : list setting) (o : opt) : level top -> level sub ->
  (options md top sub o <-> o = opt_of md (entries top) (entries sub)).
Proof.
  intros Lt Ls. pose proof Lt as (_ & Nt & _). pose proof Ls as (_ & Ns & _). unfold options, opt_of.
  rewrite (chosen_iff top sub OHeaders _ Nt Ns), !(text_iff top sub) by (auto; discriminate).
  rewrite !(time_iff top sub) by auto. destruct o as [om oi oh ok op ou ol oa oc oe on]. cbn [op_mode op_in_file op_headers op_key_id op_private_key op_public_key op_label op_algorithm op_created op_expires op_nonce].
  split.
  - intros (-> & <- & <- & <- & <- & <- & <- & <- & <- & <- & <-). reflexivity.
  - intro E. injection E as -> -> -> -> -> -> -> -> -> -> ->. repeat (split; [reflexivity|]). reflexivity.
Qed.

(** ** Written lines are read *)
Lemma level_valid (l : list setting) : level l -> validate (entries l) = true.
Proof.
  intros (F & N & T). apply validate_iff. split; [now apply entries_nodup|]. intros e I. apply entries_in in I. destruct I as (x & I & <-).
  rewrite Forall_forall in F. specialize (F x I). cbn [entry fst snd]. destruct (s_value x) as [v|] eqn:V.
  - destruct (s_name x) eqn:E; try reflexivity.
    + cbn. destruct (T x v I) as (z & J); auto. apply integer_iff in J. now rewrite J.
    + cbn. destruct (T x v I) as (z & J); auto. apply integer_iff in J. now rewrite J.
  - destruct (opt_eq_dec (s_name x) OHeaders) as [-> | D]; [reflexivity|]. destruct (has_value x F D). congruence.
Qed.
Lemma mode_word_iff (md : mode) (w : str) : mode_word md w <-> mode_of w = Some md.
Proof.
  split; [now intros []|]. unfold mode_of. destruct (str_eqb w $"canonicalize") eqn:A; [|destruct (str_eqb w $"sign") eqn:B; [|destruct (str_eqb w $"verify") eqn:C; [|discriminate]]];
    intro E; injection E as <-; [apply str_eqb_eq in A|apply str_eqb_eq in B|apply str_eqb_eq in C]; subst; constructor.
Qed.
Lemma run_mode (md : mode) (w : str) (m : matches) (n : needs) (rest : list str) : mode_word md w -> (forall o, n <> NOpt o) ->
  parse_args true m n (w :: rest) = PMode md m rest.
Proof. intros W N. destruct n as [|o|]; [|now destruct (N o)|]; destruct W; reflexivity. Qed.
Lemma line_read (args : list str) (o : opt) : command_line args o -> cli_parse args = CliRun o.
Proof.
  intros (md & w & top & sub & e & -> & W & Lt & C & Ls & E & O). unfold cli_parse, line.
  destruct (run_level true top (proj1 Lt) [] NNone) as (n & R & S). rewrite R, app_nil_r.
  assert (N : forall q, n <> NOpt q).
  { intros q ->. destruct S as [[_ S] | (b & x & m & -> & S)]; [discriminate S|]. destruct Lt as (F & _). apply Forall_app in F. destruct F as [_ F].
    inversion F as [|y ys Fx _]; subst. rewrite (closed_state b x m Fx C) in S. discriminate S. }
  cbn [app]. rewrite (run_mode md w _ n _ W N).
  destruct (run_level false sub (proj1 Ls) [] NNone) as (n' & R' & _). rewrite R', app_nil_r.
  assert (X : parse_args false (entries sub) n' e = PEnd (entries sub) n') by (destruct E as [-> | ->]; reflexivity).
  rewrite X, (level_valid sub Ls), (level_valid top Lt). cbn. f_equal. symmetry. now apply options_iff.
Qed.

(** ** What is read is written *)
Definition raw := ((opt_name * list str) * list str)%type.
Definition raw_ok (u : raw) : Prop :=
  (exists v a, snd (fst u) = [v] /\ snd u = [a] /\ spelled_out (Setting (fst (fst u)) (Some v) [a]))
  \/ (exists f, switch (fst (fst u)) f /\ snd u = f :: snd (fst u) /\ Forall separate (snd (fst u)) /\ (fst (fst u) <> OHeaders -> (List.length (snd (fst u)) <= 1)%nat)).
Definition state (us : list raw) (n : needs) : Prop :=
  match n with
  | NNone => us = []
  | NDone => exists b u, us = b ++ [u] /\ (fst (fst u) = OHeaders -> (snd (fst u) <> [] /\ List.length (snd u) = 1%nat) \/ (2 <= List.length (values_of OHeaders (rev (map fst us))))%nat)
  | NOpt o => exists b vs f, us = b ++ [((o, vs), f :: vs)] /\ switch o f /\ (o <> OHeaders -> vs = [])
  end.
Definition reading (m : matches) (n : needs) (pre : list str) : Prop :=
  exists us, pre = List.concat (map snd us) /\ m = rev (map fst us) /\ Forall raw_ok us /\ state us n.

Lemma read_option (m : matches) (n : needs) (pre : list str) (a : str) (o : opt_name) (val : option str) : reading m n pre ->
  looks_new a = true -> kind a = AOption o val ->
  reading (fst (parse_opt o val m)) (snd (parse_opt o val m)) (pre ++ [a]).
Proof.
  intros (us & -> & -> & F & _) L K. destruct val as [x|]; cbn [parse_opt fst snd].
  - pose proof (kind_attached a x o L K) as S. exists (us ++ [((o, [drop_while (Ascii.eqb "=") x]), [a])]). split; [|split; [|split]].
    + rewrite map_app, concat_app. reflexivity.
    + rewrite map_app, rev_app_distr. reflexivity.
    + apply Forall_app. split; [exact F|]. constructor; [|constructor]. left. now exists (drop_while (Ascii.eqb "=") x), a.
    + exists us, ((o, [drop_while (Ascii.eqb "=") x]), [a]). split; [reflexivity|]. intros _. left. now split.
  - pose proof (kind_bare a o L K) as S. exists (us ++ [((o, []), [a])]). split; [|split; [|split]].
    + rewrite map_app, concat_app. reflexivity.
    + rewrite map_app, rev_app_distr. reflexivity.
    + apply Forall_app. split; [exact F|]. constructor; [|constructor]. right. exists a. cbn. repeat split; auto.
    + exists us, [], a. now repeat split.
Qed.
Lemma read_value (m : matches) (pre : list str) (a : str) (o : opt_name) : reading m (NOpt o) pre -> looks_new a = false ->
  reading (add_value m a) (if needs_more o (add_value m a) then NOpt o else NDone) (pre ++ [a]).
Proof.
  intros (us & -> & -> & F & b & vs & f & -> & S & H) L. apply separate_iff in L. apply Forall_app in F. destruct F as [F1 F2].
  assert (Q : Forall separate vs /\ switch o f).
  { inversion F2 as [|u l R _]; subst. split; [|exact S]. destruct R as [(v & a' & E1 & E2 & _) | (f' & _ & _ & Q & _)]; [|exact Q].
    cbn in E1, E2. subst vs. discriminate E2. }
  destruct Q as [Q _]. rewrite map_app, rev_app_distr. cbn [map rev app add_value].
  set (u := ((o, vs ++ [a]), f :: vs ++ [a]) : raw).
  assert (M : rev (map fst (b ++ [u])) = (o, vs ++ [a]) :: rev (map fst b)) by (now rewrite map_app, rev_app_distr).
  exists (b ++ [u]). split; [|split; [|split]].
  - rewrite !map_app, !concat_app. cbn. rewrite !app_nil_r, <- !app_assoc. reflexivity.
  - now rewrite M.
  - apply Forall_app. split; [exact F1|]. constructor; [|constructor]. right. exists f. cbn. split; [exact S|]. split; [reflexivity|]. split.
    + apply Forall_app. split; [exact Q|]. constructor; [exact L|constructor].
    + intro D. rewrite (H D). cbn. lia.
  - match goal with |- state _ (if ?b then _ else _) => destruct b eqn:E end; cbn [state].
    + exists b, (vs ++ [a]), f. split; [reflexivity|]. split; [exact S|]. intro D. destruct o; try discriminate E. congruence.
    + exists b, u. split; [reflexivity|]. intro D. cbn in D. subst o. right. rewrite M. unfold needs_more in E.
      apply negb_false_iff, Nat.ltb_lt in E. exact E.
Qed.
Lemma parse_reading (top : bool) (args : list str) : forall m n pre, reading m n pre ->
  match parse_args top m n args with
  | PEnd m' n' => exists mid e, args = mid ++ e /\ (e = [] \/ e = [$"--"]) /\ reading m' n' (pre ++ mid)
  | PMode md m' rest => exists mid w n', args = mid ++ w :: rest /\ mode_word md w /\ reading m' n' (pre ++ mid) /\ forall o, n' <> NOpt o
  | _ => True
  end.
Proof.
  induction args as [|a args IH]; intros m n pre R.
  - cbn [parse_args]. exists [], []. rewrite (app_nil_r pre). split; [reflexivity|]. split; [now left|exact R].
  - cbn [parse_args]. destruct (str_eqb a $"--") eqn:D.
    + apply str_eqb_eq in D. destruct args as [|x args]; [|exact I]. exists [], [a]. rewrite D, (app_nil_r pre). split; [reflexivity|]. split; [now right|exact R].
    + cbv zeta. destruct (top && negb match n with NOpt _ => true | _ => false end && str_eqb a $"help").
      { destruct args as [|x [|y args]]; cbn [help_command]; auto. now destruct (_ || _). }
      destruct (if top && negb match n with NOpt _ => true | _ => false end then mode_of a else None) as [md|] eqn:M.
      { destruct (top && _) eqn:T; [|discriminate M]. apply andb_true_iff in T. destruct T as [_ T]. apply mode_word_iff in M.
        exists [], a, n. rewrite (app_nil_r pre). repeat split; auto. intros o ->. discriminate T. }
      assert (G : forall m' n', reading m' n' (pre ++ [a]) ->
        match parse_args top m' n' args with
        | PEnd m' n' => exists mid e, a :: args = mid ++ e /\ (e = [] \/ e = [$"--"]) /\ reading m' n' (pre ++ mid)
        | PMode md m' rest => exists mid w n', a :: args = mid ++ w :: rest /\ mode_word md w /\ reading m' n' (pre ++ mid) /\ forall o, n' <> NOpt o
        | _ => True
        end).
      { intros m' n' R'. specialize (IH m' n' _ R'). destruct (parse_args top m' n' args) as [m2 n2|md m2 rest| |]; auto.
        - destruct IH as (mid & e & -> & E & R2). exists (a :: mid), e. rewrite <- app_assoc in R2. auto.
        - destruct IH as (mid & w & n2 & -> & W & R2 & N2). exists (a :: mid), w, n2. rewrite <- app_assoc in R2. auto. }
      destruct (looks_new a) eqn:L.
      * fold (kind a). destruct (kind a) as [o val| |] eqn:K; auto. pose proof (read_option m n pre a o val R L K) as R'.
        destruct (parse_opt o val m) as [m' n']. cbn [fst snd] in R'. now apply G.
      * destruct n as [|o|]; auto. apply G. now apply read_value.
Qed.

Lemma level_of (m : matches) (n : needs) (pre : list str) : reading m n pre -> validate m = true ->
  exists l, pre = words l /\ m = entries l /\ level l /\ ((forall o, n <> NOpt o) -> closed l).
Proof.
  intros (us & -> & -> & F & S) V. pose proof V as V0. apply validate_iff in V. destruct V as [D V].
  set (st := fun u : raw => Setting (fst (fst u)) (hd_error (snd (fst u))) (snd u)).
  assert (P : forall u, In u us -> spelled_out (st u) /\ entry (st u) = fst u).
  { intros u I. rewrite Forall_forall in F. specialize (F u I). destruct u as [[o vs] ws].
    specialize (V (o, vs)). cbn [fst snd] in V. assert (VO : values_ok o vs = true) by (apply V, in_rev; rewrite rev_involutive; now apply (in_map fst) in I).
    unfold st, entry. cbn [fst snd s_name s_value] in *. destruct F as [(v & a & E1 & E2 & F) | (f & Sw & E & Q & H)]; cbn [fst snd] in *.
    - subst vs ws. now split.
    - subst ws. destruct vs as [|v [|v' vs]].
      + destruct (opt_eq_dec o OHeaders) as [-> | N]; [|destruct o; discriminate VO || congruence]. split; [|reflexivity]. now apply spelled_bare.
      + split; [|reflexivity]. apply spelled_apart; [exact Sw|]. now inversion Q.
      + destruct (opt_eq_dec o OHeaders) as [-> | N]; [discriminate VO|]. specialize (H N). cbn in H. lia. }
  exists (map st us). assert (M : map entry (map st us) = map fst us).
  { rewrite map_map. apply map_ext_in. intros u I. now apply P. }
  split; [|split; [|split; [split; [|split]|]]].
  - unfold words. rewrite map_map. reflexivity.
  - unfold entries. now rewrite M.
  - apply Forall_forall. intros x I. apply in_map_iff in I. destruct I as (u & <- & I). now apply P.
  - apply entries_nodup. unfold entries. now rewrite M.
  - intros x v I N E. apply in_map_iff in I. destruct I as (u & <- & I). destruct (P u I) as [_ Pu]. unfold entry in Pu. rewrite E in Pu.
    specialize (V (fst u)). rewrite <- Pu in V. cbn [fst snd] in V. assert (W : values_ok (s_name (st u)) [v] = true).
    { apply V, in_rev. rewrite rev_involutive, Pu. now apply in_map. }
    destruct N as [N|N]; rewrite N in W; cbn in W; destruct (i64_from_str v) as [z|] eqn:Z; try discriminate W; exists z; now apply integer_iff.
  - intros N b x E Hx. destruct n as [|o|]; [|now destruct (N o)|].
    + cbn in S. subst us. now destruct b.
    + destruct S as (b' & u & -> & S). rewrite map_app in E. cbn [map] in E. apply app_inj_tail in E. destruct E as [_ <-]. cbn in Hx. destruct (S Hx) as [[S1 S2] | S1].
      * unfold st. cbn. split; [|exact S2]. destruct (snd (fst u)); [congruence|discriminate].
      * exfalso. unfold validate in V0. rewrite forallb_forall in V0. specialize (V0 OHeaders (every_option _)). unfold option_ok in V0.
        destruct (occurrences OHeaders (rev (map fst (b' ++ [u])))) eqn:O.
        -- rewrite occ_hits in O. rewrite val_hits in S1. destruct (hits OHeaders (rev (map fst (b' ++ [u])))); [cbn in S1; lia|discriminate O].
        -- apply andb_true_iff in V0. destruct V0 as [_ V0]. unfold values_ok in V0. apply Nat.leb_le in V0. lia.
Qed.
Lemma read_line (args : list str) (o : opt) : cli_parse args = CliRun o -> command_line args o.
Proof.
  unfold cli_parse. assert (R0 : reading [] NNone []) by (exists []; repeat split; constructor).
  pose proof (parse_reading true args [] NNone [] R0) as P. destruct (parse_args true [] NNone args) as [|md m rest| |]; try discriminate.
  destruct P as (mid & w & n & -> & W & R & N). pose proof (parse_reading false rest [] NNone [] R0) as P'.
  destruct (parse_args false [] NNone rest) as [m' n'| | |]; try discriminate. destruct P' as (mid' & e & -> & E & R').
  destruct (validate m') eqn:V'; [|discriminate]. destruct (validate m) eqn:V; [|discriminate]. cbn. intro Q. injection Q as <-.
  destruct (level_of m n _ R V) as (top & Et & -> & Lt & C). destruct (level_of m' n' _ R' V') as (sub & Es & -> & Ls & _). cbn [app] in Et, Es. subst mid mid'.
  exists md, w, top, sub, e. split; [reflexivity|]. split; [exact W|]. split; [exact Lt|]. split; [now apply C|]. split; [exact Ls|]. split; [exact E|]. now apply options_iff.
Qed.
Lemma cli_iff (args : list str) (o : opt) : cli_parse args = CliRun o <-> command_line args o.
Proof. split; [apply read_line|apply line_read]. Qed.
