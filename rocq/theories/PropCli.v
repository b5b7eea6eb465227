(** The arguments of the validator: C80. *)
From Verif Require Import PropOpt PipeFacts Samples CliInfo SpecCli.

(** C80: the arguments are a command line with these options (SpecCli.v) iff the program starts
    with these options. *)
Theorem C80_command_lines : forall (args : list str) (o : opt), cli_parse args = CliRun o <-> command_line args o.
Proof. exact cli_iff. Qed.
Print Assumptions C80_command_lines.
(** So the program runs with these options, and only then. *)
Theorem C80_program : forall (w : world) (args : list str) (stdin : str) (se : sign_env) (ve : verify_env) (r : outcome (result str verror)),
  program w args stdin se ve = EndRun r <-> exists o, command_line args o /\ run w o stdin se ve = r.
Proof. exact program_iff. Qed.
Print Assumptions C80_program.
(** Help or the version, not a run, for who asks, and only then. *)
Theorem C80_help : forall (w : world) (stdin : str) (se : sign_env) (ve : verify_env),
  (forall (top : list setting) (f : str) (rest : list str), Forall spelled_out top -> info_switch f -> program w (words top ++ f :: rest) stdin se ve = EndInfo)
  /\ (forall (md : mode) (m : str) (top sub : list setting) (f : str) (rest : list str), mode_word md m -> Forall spelled_out top -> closed top -> Forall spelled_out sub ->
       info_switch f -> program w (line top m sub (f :: rest)) stdin se ve = EndInfo)
  /\ (forall (top : list setting) (h : list str), Forall spelled_out top -> closed top -> help_words h -> program w (words top ++ h) stdin se ve = EndInfo)
  /\ forall (args : list str), program w args stdin se ve = EndInfo ->
       (exists f, In f args /\ info_switch f) \/ exists before h, args = before ++ h /\ help_words h.
Proof. exact help_iff. Qed.
Print Assumptions C80_help.
(** Order and spelling of the options do not matter. *)
Theorem C80_order_and_spelling_do_not_matter : forall (md : mode) (w : str) (top top' sub sub' : list setting) (e e' : list str), mode_word md w ->
  Forall spelled_out top -> Forall spelled_out top' -> Forall spelled_out sub -> Forall spelled_out sub' -> closed top -> closed top' ->
  same_settings top top' -> same_settings sub sub' -> e = [] \/ e = [$"--"] -> e' = [] \/ e' = [$"--"] ->
  cli_parse (line top w sub e) = cli_parse (line top' w sub' e').
Proof. exact cli_same. Qed.
Print Assumptions C80_order_and_spelling_do_not_matter.
(** Options before the mode may as well stand after it. *)
Theorem C80_position_does_not_matter : forall (md : mode) (w : str) (top sub : list setting) (e : list str), mode_word md w ->
  Forall spelled_out top -> Forall spelled_out sub -> closed top -> (forall x y, In x top -> In y sub -> s_name x <> s_name y) -> e = [] \/ e = [$"--"] ->
  cli_parse (line top w sub e) = cli_parse (line [] w (top ++ sub) e).
Proof. exact cli_position. Qed.
Print Assumptions C80_position_does_not_matter.
(** All options with times of 64 bits can be given. *)
Theorem C80_every_configuration_can_be_given : forall (o : opt),
  (forall z, op_created o = Some z -> (- 2 ^ 63 <= z < 2 ^ 63)%Z) -> (forall z, op_expires o = Some z -> (- 2 ^ 63 <= z < 2 ^ 63)%Z) ->
  exists args, cli_parse args = CliRun o.
Proof. exact cli_every. Qed.
Print Assumptions C80_every_configuration_can_be_given.
(** But a value that starts with a hyphen, such as a time before 1970, is not accepted as an
    argument of its own. *)
Theorem C80_hyphens_are_not_accepted_apart : forall (md : mode) (w : str) (top sub : list setting) (o : opt_name) (f v : str) (rest : list str) (r : opt), mode_word md w ->
  Forall spelled_out top -> Forall spelled_out sub -> closed top -> switch o f -> o <> OHeaders -> ~ separate v ->
  cli_parse (line top w sub (f :: v :: rest)) <> CliRun r.
Proof. exact cli_no_value. Qed.
Print Assumptions C80_hyphens_are_not_accepted_apart.
(** And --headers with its value apart cannot stand directly before the mode. *)
Theorem C80_headers_before_the_mode : forall (top : list setting) (f v w : str) (rest : list str) (r : opt), Forall spelled_out top -> switch OHeaders f -> separate v -> separate w ->
  cli_parse (words top ++ f :: v :: w :: rest) <> CliRun r.
Proof. exact cli_two_words. Qed.
Print Assumptions C80_headers_before_the_mode.
Theorem C80_any_value_anywhere_refuted : exists (hs created : str), integer created (-5)
  /\ cli_parse [$"sign"; $"-c"; created] = CliError /\ cli_parse [$"-d"; hs; $"sign"] = CliError
  /\ (exists o, cli_parse [$"sign"; $"--created=" ++ created] = CliRun o) /\ exists o, cli_parse [$"sign"; $"-d"; hs] = CliRun o.
Proof.
  exists $"host date", $"-5". split; [now apply integer_iff|]. split; [vm_compute; reflexivity|]. split; [vm_compute; reflexivity|].
  split; eexists; vm_compute; reflexivity.
Qed.
Print Assumptions C80_any_value_anywhere_refuted.
(** The pipeline of the README, sign then verify, succeeds whenever the first command does and
    the key files belong together. *)
Theorem C80_readme_pipeline : forall (w : world) (hs a k p u stdin t : str) (se se' : sign_env) (ve ve' : verify_env)
  (os := Opt MSign None (Some (Some hs)) (Some k) (Some p) None (Some $"sig") (Some a) None None None)
  (ov := Opt MVerify None None (Some k) None (Some u) None (Some a) None None None),
  separate hs -> separate a -> separate k -> separate p -> separate u ->
  program w (sign_args hs a k p) stdin se ve = EndRun (Done (Ok t)) ->
  key_pair w os ov (se_rnd se) -> sys_clock_ok (se_sys se) -> sys_clock_ok (ve_sys ve') ->
  (forall cs q, given os (Some cs) -> In q cs -> ~ signature_header q) ->
  (forall r, run_request w os stdin r -> honest_digest r) ->
  program w (verify_args a k u) t se' ve' = EndRun (Done (Ok [])).
Proof. exact readme_pipeline. Qed.
Print Assumptions C80_readme_pipeline.

(** The commands of the README, other spellings, and errors. *)
Example C80_case :
  cli_parse (sign_args $"host date digest" $"rsa-v1_5-sha256" $"test-key-rsa" $"../test_data/rsa-private.pem")
  = CliRun (Opt MSign None (Some (Some $"host date digest")) (Some $"test-key-rsa") (Some $"../test_data/rsa-private.pem") None (Some $"sig") (Some $"rsa-v1_5-sha256") None None None)
  /\ cli_parse [$"-kx"; $"--label=a=b"; $"verify"; $"-k=y"; $"--headers"; $"--expires"; $"+7"; $"--"]
     = CliRun (Opt MVerify None (Some None) (Some $"y") None None (Some $"a=b") None None (Some 7%Z) None)
  /\ map cli_parse [[]; [$"-k"; $"x"]; [$"sign"; $"-k"]; [$"sign"; $"-k"; $"x"; $"-k"; $"y"]; [$"sign"; $"-c"; $"9223372036854775808"]; [$"sign"; $"x"]; [$"sign"; $"--"; $"x"]; [$"--help"]; [$"help"; $"sign"]; [$"sign"; $"-V"]]
     = [CliError; CliError; CliError; CliError; CliError; CliError; CliError; CliInfo; CliInfo; CliInfo].
Proof. split; [vm_compute; reflexivity|]. split; vm_compute; reflexivity. Qed.
Example C80_settings_case : closed [Setting OHeaders (Some $"a") [$"-da"]]
  /\ Forall spelled_out [Setting OKeyId (Some $"x") [$"-k"; $"x"]; Setting OCreated (Some $"-5") [$"---created=-5"]]
  /\ same_settings [Setting OKeyId (Some $"x") [$"-k"; $"x"]; Setting OCreated (Some $"-5") [$"---created=-5"]]
       [Setting OCreated (Some $"-5") [$"-c=-5"]; Setting OKeyId (Some $"x") [$"--keyId=x"]]
  /\ ~ separate $"-5".
Proof.
  split; [|split; [|split]].
  - intros b x E _. destruct b as [|y [|z b]]; [|discriminate E|discriminate E]. injection E as <-. now split.
  - constructor; [|constructor; [|constructor]].
    + apply spelled_apart; [apply (switch_short _ "k" $"keyId"); constructor|right; discriminate].
    + apply (spelled_long OCreated "c" $"created" $"-" [] $"-5"); [constructor|repeat constructor|constructor|discriminate].
  - apply perm_swap.
  - intros [E|H]; [discriminate E|]. now apply (H $"5").
Qed.
Example C80_pipeline_case : exists t,
  program toy_world (sign_args $"host date" $"rsa-v1_5-sha256" $"k1" $"key") (request_text m_req) m_senv m_venv = EndRun (Done (Ok t))
  /\ program toy_world (verify_args $"rsa-v1_5-sha256" $"k1" $"key") t m_senv m_venv = EndRun (Done (Ok [])).
Proof. eexists. split; [vm_compute; reflexivity|]. vm_compute; reflexivity. Qed.
Example C80_help_case : info_switch $"--help" /\ info_switch $"-V" /\ help_words [$"help"; $"sign"]
  /\ map (fun a => match program toy_world a [] m_senv m_venv with EndInfo => 0 | EndUsage => 1 | EndRun _ => 2 end)
       [[$"--help"]; [$"sign"; $"-V"]; [$"-k"; $"x"; $"help"; $"sign"]; [$"-k"; $"help"; $"sign"]; [$"help"; $"me"]; [$"-x"]]
     = [0; 0; 0; 2; 1; 1]%nat.
Proof.
  split; [apply (info_long [] $"help" []); auto; constructor|]. split; [apply info_short; now right|].
  split; [apply help_on; right; exists MSign; constructor|]. vm_compute. reflexivity.
Qed.
