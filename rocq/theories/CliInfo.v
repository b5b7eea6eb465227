(** Help and version, and the program as a whole. *)
From Verif Require Import StrFacts HostFacts.
From Verif Require Export CliMore.

Lemma info_kind (f : str) : info_switch f -> looks_new f = true /\ str_eqb f $"--" = false /\ kind f = AInfo.
Proof.
  intros [c v H|h w v Hh Hw Hv].
  - destruct H as [-> | ->]; repeat split.
  - assert (N : forall t, w ++ v <> "-"%char :: t) by (destruct Hw as [-> | ->]; discriminate).
    split; [|split].
    + destruct h; [now destruct Hw as [-> | ->]|reflexivity].
    + apply str_eqb_neq. intro E. injection E as E. apply app_eq_nil in E. destruct E as [_ E]. destruct Hw as [-> | ->]; discriminate E.
    + unfold kind. change (starts_with $"--" ($"--" ++ h ++ w ++ v)) with true. cbv iota. unfold long_arg.
      change (drop_while (Ascii.eqb "-") ($"--" ++ h ++ w ++ v)) with (drop_while (Ascii.eqb "-") (h ++ w ++ v)).
      rewrite (drop_all "-" h (w ++ v) Hh), (drop_none "-" (w ++ v) N).
      destruct Hv as [-> | [u ->]]; destruct Hw as [-> | ->]; reflexivity.
Qed.
Lemma kind_info (a : str) : looks_new a = true -> kind a = AInfo -> info_switch a.
Proof.
  intros L K. unfold kind in K. destruct (starts_with $"--" a) eqn:D.
  - destruct (double_hyphens a D) as (h & E & H). unfold long_arg in K. set (b := drop_while (Ascii.eqb "-") a) in *.
    assert (Q : forall name, (if str_eqb name $"help" || str_eqb name $"version" then AInfo else AUnknown) = AInfo -> name = $"help" \/ name = $"version").
    { intros name. destruct (str_eqb name $"help") eqn:P; [left; now apply str_eqb_eq|]. destruct (str_eqb name $"version") eqn:P'; [right; now apply str_eqb_eq|discriminate]. }
    destruct (split_once "=" b) as [[n v]|] eqn:S; cbv beta iota zeta in K; (destruct (find _ all_options); [discriminate|]); apply Q in K; rewrite E.
    + apply split_once_eq in S. rewrite S. apply info_long; auto. right. now exists v.
    + rewrite <- (app_nil_r b). apply info_long; auto.
  - destruct a as [|x [|c v]]; [discriminate|discriminate|]. unfold looks_new in L. rewrite starts_single in L. destruct (Ascii.eqb_spec "-" x) as [<- | ]; [|discriminate].
    cbn [short_arg] in K. destruct (find _ all_options); [discriminate|]. apply info_short.
    destruct (Ascii.eqb_spec c "h") as [-> | ]; [now left|]. destruct (Ascii.eqb_spec c "V") as [-> | ]; [now right|discriminate].
Qed.
Lemma step_info (top : bool) (m : matches) (n : needs) (f : str) (rest : list str) : info_switch f -> parse_args top m n (f :: rest) = PInfo.
Proof.
  intro I. destruct (info_kind f I) as (L & D & K). cbn [parse_args]. rewrite D. cbv zeta. destruct (new_not_mode f L) as [M H]. rewrite H, andb_false_r, M, L.
  unfold kind in K. rewrite K. now destruct (_ && _).
Qed.
Lemma mode_word_iff (md : mode) (w : str) : mode_word md w <-> mode_of w = Some md.
Proof.
  split; [now intros []|]. unfold mode_of. destruct (str_eqb w $"canonicalize") eqn:A; [apply str_eqb_eq in A; subst; intro E; injection E as <-; constructor|].
  destruct (str_eqb w $"sign") eqn:B; [apply str_eqb_eq in B; subst; intro E; injection E as <-; constructor|].
  destruct (str_eqb w $"verify") eqn:C; [apply str_eqb_eq in C; subst; intro E; injection E as <-; constructor|discriminate].
Qed.
Lemma help_words_iff (rest : list str) : help_command rest = PInfo <-> help_words ($"help" :: rest).
Proof.
  split.
  - destruct rest as [|a [|b rest]]; [constructor| |discriminate]. cbn [help_command]. intro H. constructor.
    destruct (str_eqb a $"help") eqn:E; [left; now apply str_eqb_eq|]. right. destruct (mode_of a) as [md|] eqn:M; [|discriminate]. exists md. now apply mode_word_iff.
  - inversion 1 as [|w Hw]; subst; [reflexivity|]. cbn [help_command]. destruct Hw as [-> | [md W]]; [reflexivity|]. apply mode_word_iff in W. rewrite W, orb_true_r. reflexivity.
Qed.
(** Where the parser says "info", there is a reason. *)
Definition asks (args : list str) : Prop := (exists f, In f args /\ info_switch f) \/ exists before h, args = before ++ h /\ help_words h.
Lemma asks_cons (a : str) (args : list str) : asks args -> asks (a :: args).
Proof. intros [(f & I & F)|(b & h & -> & H)]; [left; exists f; split; [now right|exact F]|right; now exists (a :: b), h]. Qed.
Lemma parse_info (top : bool) (args : list str) : forall m n,
  match parse_args top m n args with PInfo => asks args | PMode _ _ rest => asks rest -> asks args | _ => True end.
Proof.
  induction args as [|a args IH]; intros m n; [exact I|]. cbn [parse_args].
  destruct (str_eqb a $"--"); [now destruct args|]. cbv zeta.
  destruct (top && negb match n with NOpt _ => true | _ => false end) eqn:T; cbn [andb].
  - destruct (str_eqb a $"help") eqn:H.
    + apply str_eqb_eq in H. subst a. destruct (help_command args) eqn:P; auto; [now destruct args as [|x [|y args]]; cbn in P; try discriminate P; destruct (_ || _); discriminate P|].
      right. exists [], ($"help" :: args). split; [reflexivity|now apply help_words_iff].
    + destruct (mode_of a) as [md|]; [apply asks_cons|]. destruct (looks_new a) eqn:L.
      * destruct (if starts_with $"--" a then long_arg a else short_arg a) as [o val| |] eqn:K; auto.
        -- destruct (parse_opt o val m) as [m' n']. specialize (IH m' n'). destruct (parse_args top m' n' args); auto using asks_cons.
        -- left. exists a. split; [now left|now apply kind_info].
      * destruct n as [|o|]; auto. match goal with |- context [parse_args top ?m' ?n' args] => specialize (IH m' n'); destruct (parse_args top m' n' args) end; auto using asks_cons.
  - destruct (looks_new a) eqn:L.
      * destruct (if starts_with $"--" a then long_arg a else short_arg a) as [o val| |] eqn:K; auto.
        -- destruct (parse_opt o val m) as [m' n']. specialize (IH m' n'). destruct (parse_args top m' n' args); auto using asks_cons.
        -- left. exists a. split; [now left|now apply kind_info].
      * destruct n as [|o|]; auto. match goal with |- context [parse_args top ?m' ?n' args] => specialize (IH m' n'); destruct (parse_args top m' n' args) end; auto using asks_cons.
Qed.
Lemma info_only (args : list str) : cli_parse args = CliInfo -> asks args.
Proof.
  unfold cli_parse. pose proof (parse_info true args [] NNone) as P. destruct (parse_args true [] NNone args) as [| md m rest | |]; try discriminate; auto.
  pose proof (parse_info false rest [] NNone) as P'. destruct (parse_args false [] NNone rest); try discriminate; auto. destruct (_ && _); discriminate.
Qed.
Lemma info_top (top : list setting) (f : str) (rest : list str) : Forall spelled_out top -> info_switch f -> cli_parse (words top ++ f :: rest) = CliInfo.
Proof.
  intros Ft I. unfold cli_parse. destruct (run_level true top Ft [] NNone) as (n & R & _). rewrite R, (step_info true _ n f rest I). reflexivity.
Qed.
Lemma closed_needs (top : list setting) (n : needs) : Forall spelled_out top -> closed top ->
  top = [] /\ n = NNone \/ (exists before x m', top = before ++ [x] /\ n = after x m') -> forall q, n <> NOpt q.
Proof.
  intros Ft C Q q ->. destruct Q as [[_ Q] | (b & x & m & -> & Q)]; [discriminate Q|]. apply Forall_app in Ft. destruct Ft as [_ F].
  inversion F as [|y ys Fx _]; subst. rewrite (closed_state b x m Fx C) in Q. discriminate Q.
Qed.
Lemma info_sub (md : mode) (w : str) (top sub : list setting) (f : str) (rest : list str) : mode_word md w -> Forall spelled_out top -> closed top -> Forall spelled_out sub ->
  info_switch f -> cli_parse (line top w sub (f :: rest)) = CliInfo.
Proof.
  intros W Ft C Fs I. unfold cli_parse, line. destruct (run_level true top Ft [] NNone) as (n & R & Q). rewrite R, app_nil_r.
  cbn [app]. rewrite (run_mode md w _ n _ W (closed_needs top n Ft C Q)).
  destruct (run_level false sub Fs [] NNone) as (n' & R' & _). rewrite R', (step_info false _ n' f rest I). reflexivity.
Qed.
Lemma info_help (top : list setting) (h : list str) : Forall spelled_out top -> closed top -> help_words h -> cli_parse (words top ++ h) = CliInfo.
Proof.
  intros Ft C H. unfold cli_parse. destruct (run_level true top Ft [] NNone) as (n & R & Q). rewrite R.
  pose proof (closed_needs top n Ft C Q) as N.
  assert (E : exists rest, h = $"help" :: rest) by (destruct H; eauto). destruct E as (rest & ->).
  cbn [parse_args]. change (str_eqb $"help" $"--") with false. cbv iota zeta.
  change (str_eqb $"help" $"help") with true. apply help_words_iff in H. destruct n as [|o|]; [|now destruct (N o)|]; cbn [negb andb]; now rewrite H.
Qed.
Lemma program_iff (w : world) (args : list str) (stdin : str) (se : sign_env) (ve : verify_env) (r : outcome (result str verror)) :
  program w args stdin se ve = EndRun r <-> exists o, command_line args o /\ run w o stdin se ve = r.
Proof.
  unfold program. split.
  - destruct (cli_parse args) as [o| |] eqn:E; [|discriminate|discriminate]. intro H. injection H as H. exists o. split; [now apply cli_iff|exact H].
  - intros (o & C & H). apply cli_iff in C. now rewrite C, H.
Qed.
Lemma program_info (w : world) (args : list str) (stdin : str) (se : sign_env) (ve : verify_env) : program w args stdin se ve = EndInfo <-> cli_parse args = CliInfo.
Proof. unfold program. destruct (cli_parse args); split; congruence. Qed.
Lemma help_iff (w : world) (stdin : str) (se : sign_env) (ve : verify_env) :
  (forall (top : list setting) (f : str) (rest : list str), Forall spelled_out top -> info_switch f -> program w (words top ++ f :: rest) stdin se ve = EndInfo)
  /\ (forall (md : mode) (m : str) (top sub : list setting) (f : str) (rest : list str), mode_word md m -> Forall spelled_out top -> closed top -> Forall spelled_out sub ->
       info_switch f -> program w (line top m sub (f :: rest)) stdin se ve = EndInfo)
  /\ (forall (top : list setting) (h : list str), Forall spelled_out top -> closed top -> help_words h -> program w (words top ++ h) stdin se ve = EndInfo)
  /\ forall (args : list str), program w args stdin se ve = EndInfo -> asks args.
Proof.
  split; [|split; [|split]].
  - intros top f rest Ft F. apply program_info. now apply info_top.
  - intros md m top sub f rest W Ft C Fs F. apply program_info. now apply (info_sub md).
  - intros top h Ft C H. apply program_info. now apply info_help.
  - intros args E. apply info_only. now apply program_info in E.
Qed.
