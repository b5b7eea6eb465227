(** What canonicalize prints beside what sign signs.  Nothing here models code. *)
From Verif Require Export SpecCalls SpecManual.

(** The same options with another command. *)
Definition as_mode (m : mode) (o : opt) : opt :=
  Opt m (op_in_file o) (op_headers o) (op_key_id o) (op_private_key o) (op_public_key o) (op_label o) (op_algorithm o)
    (op_created o) (op_expires o) (op_nonce o).
(** The parameters that canonicalize shows and those that sign signs, given the name of the algorithm. *)
Definition params_printed (o : opt) (a : str) : list (str * bare) :=
  opt_param $"created" BInteger (op_created o) ++ opt_param $"expires" BInteger (op_expires o)
  ++ opt_param $"nonce" BToken (op_nonce o) ++ opt_param $"keyid" BString (op_key_id o) ++ [($"alg", BString a)].
Definition params_signed (o : opt) (a : str) : list (str * bare) :=
  [($"alg", BString a)] ++ opt_param $"created" BInteger (op_created o) ++ opt_param $"expires" BInteger (op_expires o)
  ++ [($"keyid", BString (or_else [] (op_key_id o)))].
(** The two texts are alike up to the parameters at the end of the last line: [p] in one and [q] in the other. *)
Definition alike_but (m m' : str) (p q : list (str * bare)) : Prop :=
  exists (ls : list str) (list t t' : str), params_text p t /\ params_text q t'
    /\ m = List.concat (map (fun l => l ++ [ch_lf]) ls) ++ $"""@signature-params"": (" ++ list ++ $")" ++ t
    /\ m' = List.concat (map (fun l => l ++ [ch_lf]) ls) ++ $"""@signature-params"": (" ++ list ++ $")" ++ t'.
