(** The command line of the validator: [Opt::from_args] (httpsig-validator/src/main.rs:312) for
    the options declared at lines 22-77, as read by structopt 0.3 and clap 2.34 (parser.rs,
    validator.rs, arg_matcher.rs of clap).  Arguments are taken to be UTF-8.  The texts of the
    help, version and error messages are not modelled. *)
From Verif Require Export Validator HostParse.

(** The options (main.rs:37-76). *)
Inductive opt_name := OIn | OHeaders | OKeyId | OPrivateKey | OPublicKey | OLabel | OAlgorithm | OCreated | OExpires | ONonce.
Definition opt_name_eqb (a b : opt_name) : bool :=
  match a, b with
  | OIn, OIn | OHeaders, OHeaders | OKeyId, OKeyId | OPrivateKey, OPrivateKey | OPublicKey, OPublicKey
  | OLabel, OLabel | OAlgorithm, OAlgorithm | OCreated, OCreated | OExpires, OExpires | ONonce, ONonce => true
  | _, _ => false
  end.
Definition all_options : list opt_name :=
  [OIn; OHeaders; OKeyId; OPrivateKey; OPublicKey; OLabel; OAlgorithm; OCreated; OExpires; ONonce].
(** [short]: the first letter of the field unless given (main.rs:38, 43, 47, 51, 55, 59, 63, 67,
    71, 75). *)
Definition short_of (o : opt_name) : ascii :=
  match o with
  | OIn => "i" | OHeaders => "d" | OKeyId => "k" | OPrivateKey => "p" | OPublicKey => "u"
  | OLabel => "l" | OAlgorithm => "a" | OCreated => "c" | OExpires => "e" | ONonce => "n"
  end%char.
(** [long]: the field with hyphens unless given (the same lines). *)
Definition long_of (o : opt_name) : str :=
  match o with
  | OIn => $"in" | OHeaders => $"headers" | OKeyId => $"keyId" | OPrivateKey => $"private-key" | OPublicKey => $"public-key"
  | OLabel => $"label" | OAlgorithm => $"algorithm" | OCreated => $"created" | OExpires => $"expires" | ONonce => $"nonce"
  end.
(** [Mode] as subcommands (main.rs:23-28). *)
Definition mode_of (a : str) : option mode :=
  if str_eqb a $"canonicalize" then Some MCanonicalize
  else if str_eqb a $"sign" then Some MSign
  else if str_eqb a $"verify" then Some MVerify
  else None.

(** The occurrences of options so far, the last first, each with its values ([ArgMatcher]). *)
Definition matches := list (opt_name * list str).
(** [ParseResult]: nothing read yet, an option that takes (more) values, an option that is
    complete. *)
Inductive needs := NNone | NOpt (o : opt_name) | NDone.
(** How the arguments of one level end. *)
Inductive parsed :=
| PEnd (m : matches) (n : needs)
| PMode (md : mode) (m : matches) (rest : list str)
| PInfo                                               (* help or version *)
| PFail.

(** [ArgMatcher::needs_more_vals]: all options take one value; "headers" ([Option<Option<_>>],
    [min_values = 0], main.rs:43-44) has at most one, and asks for more unless it has more. *)
Definition values_of (o : opt_name) (m : matches) : list str :=
  List.concat (map snd (filter (fun e => opt_name_eqb (fst e) o) m)).
Definition needs_more (o : opt_name) (m : matches) : bool :=
  match o with OHeaders => negb (1 <? List.length (values_of OHeaders m))%nat | _ => false end.
(** [add_val_to_arg]: to the last occurrence. *)
Definition add_value (m : matches) (v : str) : matches :=
  match m with (o, vs) :: m' => (o, vs ++ [v]) :: m' | [] => [] end.

(** [parse_opt]: a value attached to the option loses its leading equals signs. *)
Definition parse_opt (o : opt_name) (val : option str) (m : matches) : matches * needs :=
  match val with
  | Some v => ((o, [drop_while (Ascii.eqb "=") v]) :: m, NDone)
  | None => ((o, []) :: m, NOpt o)
  end.

(** What an argument that starts with a hyphen is: an option, help or version, or unknown. *)
Inductive arg_kind := AOption (o : opt_name) (val : option str) | AInfo | AUnknown.
(** [parse_long_arg]: any number of hyphens is dropped; the value follows the first equals
    sign. *)
Definition long_arg (a : str) : arg_kind :=
  let body := drop_while (Ascii.eqb "-") a in
  let '(name, val) := match split_once "=" body with Some (n, v) => (n, Some v) | None => (body, None) end in
  match find (fun o => str_eqb (long_of o) name) all_options with
  | Some o => AOption o val
  | None => if str_eqb name $"help" || str_eqb name $"version" then AInfo else AUnknown
  end.
(** [parse_short_arg]: what follows the letter is the value.  (There are no flags besides
    help and version, at which parsing stops.) *)
Definition short_arg (a : str) : arg_kind :=
  match a with
  | _ :: c :: v =>
      match find (fun o => Ascii.eqb (short_of o) c) all_options with
      | Some o => AOption o (match v with [] => None | _ => Some v end)
      | None => if Ascii.eqb c "h" || Ascii.eqb c "V" then AInfo else AUnknown
      end
  | _ => AUnknown
  end.

(** [parse_help_subcommand]: "help", with the name of a subcommand or not. *)
Definition help_command (rest : list str) : parsed :=
  match rest with
  | [] => PInfo
  | [a] => if str_eqb a $"help" || match mode_of a with Some _ => true | None => false end then PInfo else PFail
  | _ => PFail
  end.

(** [get_matches_with]: the arguments of one level; [top]: the one with the subcommands.  A
    hyphen alone is a value; after "--" nothing may follow, as there are no positional
    arguments. *)
Definition looks_new (a : str) : bool := starts_with $"-" a && (2 <=? List.length a)%nat.
Fixpoint parse_args (top : bool) (m : matches) (n : needs) (args : list str) : parsed :=
  match args with
  | [] => PEnd m n
  | a :: rest =>
      if str_eqb a $"--" then match rest with [] => PEnd m n | _ => PFail end
      else
        let pending := match n with NOpt _ => true | _ => false end in
        if top && negb pending && (str_eqb a $"help") then help_command rest
        else
          match (if top && negb pending then mode_of a else None) with
          | Some md => PMode md m rest
          | None =>
              if looks_new a then
                match (if starts_with $"--" a then long_arg a else short_arg a) with
                | AOption o val => let '(m', n') := parse_opt o val m in parse_args top m' n' rest
                | AInfo => PInfo
                | AUnknown => PFail
                end
              else
                match n with
                | NOpt o => let m' := add_value m a in parse_args top m' (if needs_more o m' then NOpt o else NDone) rest
                | _ => PFail
                end
          end
  end.

(** [i64::from_str] (main.rs:67-72). *)
Definition i64_from_str (s : str) : option Z :=
  let '(neg, ds) := match s with
                    | c :: t => if Ascii.eqb c "-" then (true, t) else if Ascii.eqb c "+" then (false, t) else (false, s)
                    | [] => (false, s)
                    end in
  match ds with
  | [] => None
  | _ =>
      if forallb is_digit ds then
        let n := Z.of_N (radix_value 10 ds) in
        let z := if neg then (- n)%Z else n in
        if (- 2 ^ 63 <=? z)%Z && (z <? 2 ^ 63)%Z then Some z else None
      else None
  end.

(** [Validator::validate]: every option at most once, with one value ("headers": at most one);
    the times are integers. *)
Definition occurrences (o : opt_name) (m : matches) : nat := List.length (filter (fun e => opt_name_eqb (fst e) o) m).
Definition values_ok (o : opt_name) (vs : list str) : bool :=
  match o with
  | OHeaders => (List.length vs <=? 1)%nat
  | OCreated | OExpires =>
      match vs with [] => false | _ => forallb (fun v => match i64_from_str v with Some _ => true | None => false end) vs end
  | _ => match vs with [] => false | _ => true end
  end.
Definition option_ok (m : matches) (o : opt_name) : bool :=
  match occurrences o m with
  | O => true
  | S k => (k =? 0)%nat && values_ok o (values_of o m)
  end.
Definition validate (m : matches) : bool := forallb (option_ok m) all_options.

(** [propagate_globals] (all options are [global]): the occurrence after the subcommand counts,
    if there is one; then [value_of]. *)
Definition chosen (o : opt_name) (top sub : matches) : option (option str) :=
  match occurrences o sub, occurrences o top with
  | S _, _ => Some (hd_error (values_of o sub))
  | O, S _ => Some (hd_error (values_of o top))
  | O, O => None
  end.
Definition value_of (o : opt_name) (top sub : matches) : option str := opt_bind (chosen o top sub) (fun v => v).
(** [from_clap] (main.rs:30-77). *)
Definition opt_of (md : mode) (top sub : matches) : opt :=
  Opt md (value_of OIn top sub) (chosen OHeaders top sub) (value_of OKeyId top sub) (value_of OPrivateKey top sub)
    (value_of OPublicKey top sub) (value_of OLabel top sub) (value_of OAlgorithm top sub)
    (opt_bind (value_of OCreated top sub) i64_from_str) (opt_bind (value_of OExpires top sub) i64_from_str) (value_of ONonce top sub).

(** [Opt::from_args]: options, or an exit with a text: help or version (status 0), or an error
    (status 1).  main.rs:312. *)
Inductive cli := CliRun (o : opt) | CliInfo | CliError.
Definition cli_parse (args : list str) : cli :=
  match parse_args true [] NNone args with
  | PMode md m rest =>
      match parse_args false [] NNone rest with
      | PEnd m' _ => if validate m' && validate m then CliRun (opt_of md m m') else CliError
      | PInfo => CliInfo
      | PMode _ _ _ | PFail => CliError
      end
  | PInfo => CliInfo
  | PEnd _ _ | PFail => CliError                       (* SubcommandRequiredElseHelp *)
  end.

(** The program: main.rs:309-342, with the arguments after the program name. *)
Inductive ended := EndInfo | EndUsage | EndRun (res : outcome (result str verror)).
Definition program (w : world) (args : list str) (stdin : str) (se : sign_env) (ve : verify_env) : ended :=
  match cli_parse args with
  | CliRun o => EndRun (run w o stdin se ve)
  | CliInfo => EndInfo
  | CliError => EndUsage
  end.
