(** The command line of the validator.  Nothing here models code. *)
From Coq Require Export Permutation.
From Verif Require Export SpecOpt SpecHost CommandLine.

(** The options and their two names. *)
Inductive names : opt_name -> ascii -> str -> Prop :=
| names_in : names OIn "i" $"in"
| names_headers : names OHeaders "d" $"headers"
| names_key_id : names OKeyId "k" $"keyId"
| names_private : names OPrivateKey "p" $"private-key"
| names_public : names OPublicKey "u" $"public-key"
| names_label : names OLabel "l" $"label"
| names_algorithm : names OAlgorithm "a" $"algorithm"
| names_created : names OCreated "c" $"created"
| names_expires : names OExpires "e" $"expires"
| names_nonce : names ONonce "n" $"nonce".
Inductive mode_word : mode -> str -> Prop :=
| word_canonicalize : mode_word MCanonicalize $"canonicalize"
| word_sign : mode_word MSign $"sign"
| word_verify : mode_word MVerify $"verify".

(** "-k", "--keyId"; more hyphens do not matter. *)
Definition hyphens (s : str) : Prop := Forall (fun c => c = "-"%char) s.
Inductive switch (o : opt_name) : str -> Prop :=
| switch_short c w : names o c w -> switch o ["-"%char; c]
| switch_long c w h : names o c w -> hyphens h -> switch o ($"--" ++ h ++ w).

(** A value that can stand as an argument of its own: it does not start with a hyphen, or is
    one. *)
Definition separate (v : str) : Prop := v = $"-" \/ forall t, v <> "-"%char :: t.
Definition no_equals (v : str) : Prop := forall t, v <> "="%char :: t.
Definition equals_signs (s : str) : Prop := Forall (fun c => c = "="%char) s.

(** An option as written: its name, its value if it has one, and the arguments it consists
    of. *)
Record setting := Setting { s_name : opt_name; s_value : option str; s_words : list str }.
Inductive spelled_out : setting -> Prop :=
| spelled_apart o f v : switch o f -> separate v -> spelled_out (Setting o (Some v) [f; v])       (* -k v, --keyId v *)
| spelled_short o c w e v : names o c w -> equals_signs e -> no_equals v -> e ++ v <> [] ->
    spelled_out (Setting o (Some v) ["-"%char :: c :: e ++ v])                                    (* -kv, -k=v *)
| spelled_long o c w h e v : names o c w -> hyphens h -> equals_signs e -> no_equals v ->
    spelled_out (Setting o (Some v) [$"--" ++ h ++ w ++ $"=" ++ e ++ v])                          (* --keyId=v *)
| spelled_bare f : switch OHeaders f -> spelled_out (Setting OHeaders None [f]).                  (* -d, --headers *)
Definition words (l : list setting) : list str := List.concat (map s_words l).

(** The times are integers of 64 bits. *)
Definition integer (s : str) (z : Z) : Prop :=
  exists sign ds n, s = sign ++ ds /\ ds <> [] /\ numeral 10 ds n
    /\ (sign = $"-" /\ z = (- Z.of_N n)%Z \/ (sign = $"+" \/ sign = []) /\ z = Z.of_N n)
    /\ (- 2 ^ 63 <= z < 2 ^ 63)%Z.
Definition times_ok (l : list setting) : Prop :=
  forall x v, In x l -> s_name x = OCreated \/ s_name x = OExpires -> s_value x = Some v -> exists z, integer v z.
(** One level of the command line: no option twice. *)
Definition level (l : list setting) : Prop := Forall spelled_out l /\ NoDup (map s_name l) /\ times_ok l.
(** The last option, if it is --headers, has its value attached. *)
Definition closed (l : list setting) : Prop :=
  forall before x, l = before ++ [x] -> s_name x = OHeaders -> s_value x <> None /\ List.length (s_words x) = 1%nat.

(** What an option is set to by the options before and after the mode: those after it win. *)
Inductive set_to (top sub : list setting) (o : opt_name) : option (option str) -> Prop :=
| set_after x : In x sub -> s_name x = o -> set_to top sub o (Some (s_value x))
| set_before x : ~ In o (map s_name sub) -> In x top -> s_name x = o -> set_to top sub o (Some (s_value x))
| set_not : ~ In o (map s_name sub) -> ~ In o (map s_name top) -> set_to top sub o None.
Definition set_text (top sub : list setting) (o : opt_name) (x : option str) : Prop :=
  match x with Some v => set_to top sub o (Some (Some v)) | None => set_to top sub o None end.
Definition set_time (top sub : list setting) (o : opt_name) (x : option Z) : Prop :=
  match x with Some z => exists v, set_to top sub o (Some (Some v)) /\ integer v z | None => set_to top sub o None end.
Definition options (md : mode) (top sub : list setting) (o : opt) : Prop :=
  op_mode o = md /\ set_text top sub OIn (op_in_file o) /\ set_to top sub OHeaders (op_headers o)
  /\ set_text top sub OKeyId (op_key_id o) /\ set_text top sub OPrivateKey (op_private_key o)
  /\ set_text top sub OPublicKey (op_public_key o) /\ set_text top sub OLabel (op_label o)
  /\ set_text top sub OAlgorithm (op_algorithm o) /\ set_time top sub OCreated (op_created o)
  /\ set_time top sub OExpires (op_expires o) /\ set_text top sub ONonce (op_nonce o).

(** Options, the mode, options; "--" may follow. *)
Definition line (top : list setting) (w : str) (sub : list setting) (ending : list str) : list str :=
  words top ++ [w] ++ words sub ++ ending.
Definition command_line (args : list str) (o : opt) : Prop :=
  exists md w top sub ending, args = line top w sub ending /\ mode_word md w /\ level top /\ closed top /\ level sub
    /\ (ending = [] \/ ending = [$"--"]) /\ options md top sub o.

(** The same options with the same values, in any order and spelling. *)
Definition same_settings (a b : list setting) : Prop :=
  Permutation (map (fun x => (s_name x, s_value x)) a) (map (fun x => (s_name x, s_value x)) b).

(** The commands of the README: sign and verify. *)
Definition sign_args (headers algorithm key_id private : str) : list str :=
  [$"sign"; $"-l"; $"sig"; $"-d"; headers; $"-a"; algorithm; $"-k"; key_id; $"-p"; private].
Definition verify_args (algorithm key_id public : str) : list str := [$"verify"; $"-a"; algorithm; $"-k"; key_id; $"-u"; public].

(** Asking for help or the version: -h, --help, -V, --version with or without anything attached;
    "help" with or without a mode. *)
Inductive info_switch : str -> Prop :=
| info_short c v : c = "h"%char \/ c = "V"%char -> info_switch ("-"%char :: c :: v)
| info_long h w v : hyphens h -> w = $"help" \/ w = $"version" -> v = [] \/ (exists u, v = "="%char :: u) -> info_switch ($"--" ++ h ++ w ++ v).
Inductive help_words : list str -> Prop :=
| help_alone : help_words [$"help"]
| help_on w : w = $"help" \/ (exists md, mode_word md w) -> help_words [$"help"; w].
