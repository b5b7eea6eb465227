(** Requests with more text at their end.  Nothing here models code. *)
From Verif Require Export SpecCut.

(** The text ends with a whole line. *)
Definition ends_whole (t : str) : Prop := exists s, t = s ++ [ch_lf].
(** The request with a longer body. *)
Definition longer (r : mock) (x : str) : mock :=
  MockReq (mr_version r) (mr_method r) (mr_url r) (mr_path r) (mr_headers r) (option_map (fun b => b ++ x) (mr_body r)).
(** [q] is [r] with the header lines [hs] after its own, where of several lines for one header the last counts, and with
    the body that came with them. *)
Definition more_lines (r q : mock) (hs : list (str * str)) : Prop :=
  mr_version q = mr_version r /\ mr_method q = mr_method r /\ mr_path q = mr_path r
  /\ (forall h, first_value (mr_headers q) h = match value_of h (rev hs) with Some v => Some v | None => first_value (mr_headers r) h end).

(** The value of a component cannot be told apart from its neighbours if it has a line feed; header values have none. *)
Definition derived_on_one_line (cs : list component) (r : mock) : Prop :=
  forall d v, In (CDerived d) cs -> mr_derive r (CDerived d) = Done (Some v) -> no_lf v.
(** The key that verify was given accepts for the request [q] what the key that sign was given made for [r], although they
    have different signature bases. *)
Definition passed_off (w : world) (os ov : opt) (rnd : N) (now : Z) (r q : mock) : Prop :=
  exists c keys k m m', sign_opts w os (Ok c) /\ verify_opts w ov (Ok keys) /\ In k (keys (sc_key_id c))
    /\ signature_base (mr_derive r) (sc_components c) (stamp c now) m /\ signature_base (mr_derive q) (sc_components c) (stamp c now) m'
    /\ m <> m' /\ vf_verify k m' (sg_sign (sc_signature c) rnd m) = true.
