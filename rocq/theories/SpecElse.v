(** Signatures that are made with other tools over what canonicalize shows.  Nothing here models code. *)
From Verif Require Export SpecShow.

(** [sp] is what stands after the name on the last line of [m]. *)
Definition on_last_line (m sp : str) : Prop :=
  no_lf sp /\ exists before, (before = [] \/ exists b, before = b ++ [ch_lf]) /\ m = before ++ $"""@signature-params"": " ++ sp.
(** The request with the two headers that carry the signature [sig] and the list [sp]. *)
Definition carrying (r : mock) (sp sig : str) : mock :=
  mr_set_header (mr_set_header r $"signature-input" ($"sig=" ++ sp)) $"signature" ($"sig=:" ++ sig ++ $":").
