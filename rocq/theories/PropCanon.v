(** Properties C01-C04 and C06-C08: canonicalization and Signature-Input. *)
From Verif Require Import Spec CanonFacts Samples.

(** C01: the bytes of a successful canonicalization are exactly the signature base, and
    every signature base is produced. *)
Theorem C01_signature_base_layout : forall R (rl : request_like R) (r : R) (cfg : canon_config) base si,
  canonicalize rl r cfg = Done (Ok (base, si)) <->
  signature_base (rl_derive rl r) (cc_components cfg) (cc_params cfg) base
  /\ si = SignatureInput (cc_get_label cfg) (InnerList (map component_item (cc_components cfg)) (cc_params cfg)).
Proof. exact @canonicalize_ok_spec. Qed.
Print Assumptions C01_signature_base_layout.
Example C01_case : exists si, canonicalize rq_rl s_req s_cfg = Done (Ok (s_base, si)).
Proof. eexists. vm_compute. reflexivity. Qed.

(** C02: MissingComponents is returned exactly for the components without a value. *)
Theorem C02_missing_components : forall R (rl : request_like R) (r : R) (cfg : canon_config) (os : list (option str)),
  Forall2 (fun c o => rl_derive rl r c = Done o) (cc_components cfg) os ->
  (forall l, canonicalize rl r cfg = Done (Err (EMissingComponents l))
             <-> l <> [] /\ l = lacking (combine (cc_components cfg) os))
  /\ (forall e, canonicalize rl r cfg = Done (Err e) -> exists l, e = EMissingComponents l).
Proof. exact @canonicalize_missing_iff. Qed.
Print Assumptions C02_missing_components.
(** Deriving a component may itself panic; [canonicalize] then panics. *)
Theorem C02_derivation_panic : forall R (rl : request_like R) (r : R) (cfg : canon_config),
  (exists c, In c (cc_components cfg) /\ rl_derive rl r c = Panic) -> canonicalize rl r cfg = Panic.
Proof. exact @canonicalize_derive_panic. Qed.
Print Assumptions C02_derivation_panic.
(** A derived component made from an item that is not a string. *)
Example C02_panic_case : let cs := [CHeader $"x-a"; CDerived (Derived (Item (BInteger 1) []))] in
  (exists c, In c cs /\ rl_derive rq_rl s_req c = Panic) /\ canonicalize rq_rl s_req (cc_set_components cc_new cs) = Panic.
Proof. split; [eexists; split; [right; left; reflexivity|reflexivity]|reflexivity]. Qed.
Example C02_case : let cs := [CDerived (dc_new AT_METHOD); CHeader $"x-a"; CHeader h_date; CHeader $"x-b"; CHeader $"x-a"] in
  Forall2 (fun c o => rl_derive rq_rl s_req c = Done o) cs
    [Some $"POST"; None; Some $"Tue, 20 Apr 2021 02:07:55 GMT"; None; None]
  /\ canonicalize rq_rl s_req (cc_set_components cc_new cs)
     = Done (Err (EMissingComponents [CHeader $"x-a"; CHeader $"x-b"; CHeader $"x-a"])).
Proof. split; [repeat constructor|vm_compute; reflexivity]. Qed.

(** C03: equal bases, equal component lists and parameters (decimals by value). *)
Theorem C03_base_binds_components_and_parameters :
  forall R S (rl : request_like R) (sl : request_like S) (r : R) (s : S) (c1 c2 : canon_config) base si1 si2,
  Forall component_rep (cc_components c1) -> Forall component_rep (cc_components c2) ->
  params_rep (cc_params c1) -> params_rep (cc_params c2) ->
  canonicalize rl r c1 = Done (Ok (base, si1)) -> canonicalize sl s c2 = Done (Ok (base, si2)) ->
  Forall2 same_component (cc_components c1) (cc_components c2) /\ same_params (cc_params c1) (cc_params c2).
Proof. exact @base_binds_config. Qed.
Print Assumptions C03_base_binds_components_and_parameters.
Example C03_case : Forall component_rep (cc_components s_cfg) /\ params_rep (cc_params s_cfg)
  /\ exists si, canonicalize rq_rl s_req s_cfg = Done (Ok (s_base, si)).
Proof.
  destruct (config_repb_rep s_cfg eq_refl) as (_ & A & B). split; [exact A|]. split; [exact B|].
  eexists. vm_compute. reflexivity.
Qed.

(** C04: equal bases, no line feeds in values: equal values.  Stated for two
    configurations; for one configuration nothing has to be representable and values
    may even contain line feeds, if each component has equally many on both sides. *)
Theorem C04_base_binds_values :
  forall R S (rl : request_like R) (sl : request_like S) (r : R) (s : S) (c1 c2 : canon_config) base si1 si2,
  Forall component_rep (cc_components c1) -> Forall component_rep (cc_components c2) ->
  params_rep (cc_params c1) -> params_rep (cc_params c2) ->
  canonicalize rl r c1 = Done (Ok (base, si1)) -> canonicalize sl s c2 = Done (Ok (base, si2)) ->
  (forall c v, In c (cc_components c1) -> rl_derive rl r c = Done (Some v) -> ~ In ch_lf v) ->
  (forall c v, In c (cc_components c2) -> rl_derive sl s c = Done (Some v) -> ~ In ch_lf v) ->
  Forall2 (fun a b => same_component a b
                      /\ exists v, rl_derive rl r a = Done (Some v) /\ rl_derive sl s b = Done (Some v))
    (cc_components c1) (cc_components c2).
Proof. exact @base_binds_values. Qed.
Print Assumptions C04_base_binds_values.
Theorem C04_base_binds_values_same_config :
  forall R S (rl : request_like R) (sl : request_like S) (r : R) (s : S) (c : canon_config) base si1 si2,
  canonicalize rl r c = Done (Ok (base, si1)) -> canonicalize sl s c = Done (Ok (base, si2)) ->
  (forall x v w, In x (cc_components c) -> rl_derive rl r x = Done (Some v) -> rl_derive sl s x = Done (Some w) ->
     lf_count v = lf_count w) ->
  forall x, In x (cc_components c) -> exists v, rl_derive rl r x = Done (Some v) /\ rl_derive sl s x = Done (Some v).
Proof. exact @base_binds_values_same. Qed.
Print Assumptions C04_base_binds_values_same_config.
Example C04_case : forall c v, In c (cc_components s_cfg) -> rl_derive rq_rl s_req c = Done (Some v) -> ~ In ch_lf v.
Proof.
  intros c v [<-|[<-|[<-|[]]]] H; injection H as <-; intro F; revert F; apply existsb_lf_false; reflexivity.
Qed.

(** C06: only the covered components matter. *)
Theorem C06_only_covered_components_matter :
  forall R S (rl : request_like R) (sl : request_like S) (r : R) (s : S) (cfg : canon_config),
  (forall c, In c (cc_components cfg) -> rl_derive rl r c = rl_derive sl s c) ->
  canonicalize rl r cfg = canonicalize sl s cfg.
Proof. exact @canonicalize_ext. Qed.
Print Assumptions C06_only_covered_components_matter.
Example C06_case : let r' := Rq $"POST" (Url $"http" true [] None None None $"/" None None)
    [(h_date, $"Tue, 20 Apr 2021 02:07:55 GMT"); ($"x", $"y"); ($"content-type", $"text/plain")] BNone in
  r' <> s_req /\ forall c, In c (cc_components s_cfg) -> rl_derive rq_rl s_req c = rl_derive rq_rl r' c.
Proof. split; [discriminate|]. intros c [<-|[<-|[<-|[]]]]; reflexivity. Qed.

(** C07: print, then parse. *)
Theorem C07_signature_input_round_trip : forall cfg, config_rep cfg ->
  exists t cfg', si_to_string (cc_to_signature_input cfg) = Done t
    /\ cc_parse t = Done (Ok cfg')
    /\ cc_get_label cfg' = cc_get_label cfg
    /\ Forall2 same_component (cc_components cfg') (cc_components cfg)
    /\ same_params (cc_params cfg') (cc_params cfg).
Proof. exact print_parse_config. Qed.
Print Assumptions C07_signature_input_round_trip.
Example C07_case : config_rep s_cfg /\ si_to_string (cc_to_signature_input s_cfg) = Done s_input.
Proof. split; [apply config_repb_rep; reflexivity|reflexivity]. Qed.

(** C08: a parsed configuration is representable; it can always be canonicalized
    (unless deriving a component panics) and printed, and the text parses to the same
    configuration. *)
Theorem C08_parsed_configuration_reserializes : forall s cfg, cc_parse s = Done (Ok cfg) ->
  (forall R (rl : request_like R) (r : R), canonicalize rl r cfg = Panic ->
     exists c, In c (cc_components cfg) /\ rl_derive rl r c = Panic)
  /\ exists t cfg', si_to_string (cc_to_signature_input cfg) = Done t
       /\ cc_parse t = Done (Ok cfg')
       /\ cc_get_label cfg' = cc_get_label cfg
       /\ Forall2 same_component (cc_components cfg') (cc_components cfg)
       /\ same_params (cc_params cfg') (cc_params cfg).
Proof. exact parsed_reserializes. Qed.
Print Assumptions C08_parsed_configuration_reserializes.
Example C08_case : exists cfg, cc_parse (s2b "a=(""x-1"" ""@query-params"";name=""q"" ""@x"";r=1.250;t;b=:aGk=:);created=7, b=2") = Done (Ok cfg)
  /\ List.length (cc_components cfg) = 3%nat.
Proof. eexists. vm_compute. split; reflexivity. Qed.
