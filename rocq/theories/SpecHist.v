(** Histories of calls.  Nothing here models code; the [*_do] functions only dispatch to
    the modelled methods. *)
From Verif Require Export SpecVerify Signing.

(** The result of the last call of a kind. *)
Definition last_some {A B} (f : A -> option B) (calls : list A) : option B :=
  fold_left (fun acc x => match f x with Some b => Some b | None => acc end) calls None.
Definition or_default {A} (d : A) (o : option A) : A := match o with Some a => a | None => d end.

(** ** SimpleKeyProvider *)
Inductive key_call := AddKey (id : str) (k : http_verifier) | RemoveKeys (id : str) | ClearKeys.
Definition key_do (m : simple_keys) (c : key_call) : simple_keys :=
  match c with AddKey id k => skp_add m id k | RemoveKeys id => skp_remove_all m id | ClearKeys => skp_clear m end.
Definition forgets (id : str) (c : key_call) : Prop := c = RemoveKeys id \/ c = ClearKeys.
(** [added id calls ks]: [ks] are the keys added under [id], in order. *)
Inductive added (id : str) : list key_call -> list http_verifier -> Prop :=
| added_nil : added id [] []
| added_yes k cs ks : added id cs ks -> added id (AddKey id k :: cs) (k :: ks)
| added_no c cs ks : (forall k, c <> AddKey id k) -> added id cs ks -> added id (c :: cs) ks.
(** The keys added since they were last forgotten. *)
Definition keys_since (id : str) (calls : list key_call) (ks : list http_verifier) : Prop :=
  exists old recent, calls = old ++ recent
    /\ (old = [] \/ exists old' c, old = old' ++ [c] /\ forgets id c)
    /\ Forall (fun c => ~ forgets id c) recent /\ added id recent ks.

(** ** SignatureParams *)
Inductive param_call := PCreated (z : Z) | PExpires (z : Z) | PNonce (s : str) | PAlg (s : str) | PKeyid (s : str).
Definition param_do (p : params) (c : param_call) : params :=
  match c with
  | PCreated z => sp_set_created p z | PExpires z => sp_set_expires p z | PNonce s => sp_set_nonce p s
  | PAlg s => sp_set_alg p s | PKeyid s => sp_set_keyid p s
  end.
(** The parameter a call sets. *)
Definition param_entry (c : param_call) : str * bare :=
  match c with
  | PCreated z => ($"created", BInteger z) | PExpires z => ($"expires", BInteger z) | PNonce s => ($"nonce", BToken s)
  | PAlg s => ($"alg", BString s) | PKeyid s => ($"keyid", BString s)
  end.
Definition p_created (c : param_call) : option Z := match c with PCreated z => Some z | _ => None end.
Definition p_expires (c : param_call) : option Z := match c with PExpires z => Some z | _ => None end.
Definition p_nonce (c : param_call) : option str := match c with PNonce s => Some s | _ => None end.
Definition p_alg (c : param_call) : option str := match c with PAlg s => Some s | _ => None end.
Definition p_keyid (c : param_call) : option str := match c with PKeyid s => Some s | _ => None end.
Definition entry_of (k : str) (c : param_call) : option bare :=
  if list_eq_dec ascii_dec (fst (param_entry c)) k then Some (snd (param_entry c)) else None.

(** ** CanonicalizeConfig *)
Inductive canon_call := CSetLabel (l : str) | CSetComponents (l : list component) | CSetParam (c : param_call).
Definition canon_do (c : canon_config) (x : canon_call) : canon_config :=
  match x with
  | CSetLabel l => cc_set_label c l
  | CSetComponents l => cc_set_components c l
  | CSetParam (PCreated z) => cc_set_created c z
  | CSetParam (PExpires z) => cc_set_expires c z
  | CSetParam (PNonce s) => cc_set_nonce c s
  | CSetParam (PAlg s) => cc_set_alg c s
  | CSetParam (PKeyid s) => cc_set_keyid c s
  end.
Definition c_label (x : canon_call) : option str := match x with CSetLabel l => Some l | _ => None end.
Definition c_components (x : canon_call) : option (list component) := match x with CSetComponents l => Some l | _ => None end.
Definition c_param {A} (f : param_call -> option A) (x : canon_call) : option A := match x with CSetParam c => f c | _ => None end.

(** ** SigningConfig *)
Inductive sign_call :=
| SNonce (s : str) | SDigest (d : http_digest) | SComputeDigest (b : bool) | SAddDate (b : bool) | SAddHost (b : bool)
| SComponents (l : list component) | SSkipMissing (b : bool)
| SCreatedAuto | SCreatedAt (t : Z) | SExpiresRelative (o : Z) | SExpiresAt (t : Z).
Definition sign_do (c : signing_config) (x : sign_call) : signing_config :=
  match x with
  | SNonce s => sc_set_nonce c s | SDigest d => sc_set_digest c d | SComputeDigest b => sc_set_compute_digest c b
  | SAddDate b => sc_set_add_date c b | SAddHost b => sc_set_add_host c b | SComponents l => sc_set_components c l
  | SSkipMissing b => sc_set_skip_missing c b | SCreatedAuto => sc_set_created_auto c | SCreatedAt t => sc_set_created_at c t
  | SExpiresRelative o => sc_set_expires_relative c o | SExpiresAt t => sc_set_expires_at c t
  end.
Definition s_nonce x := match x with SNonce s => Some s | _ => None end.
Definition s_digest x := match x with SDigest s => Some s | _ => None end.
Definition s_compute_digest x := match x with SComputeDigest s => Some s | _ => None end.
Definition s_add_date x := match x with SAddDate s => Some s | _ => None end.
Definition s_add_host x := match x with SAddHost s => Some s | _ => None end.
Definition s_components x := match x with SComponents s => Some s | _ => None end.
Definition s_skip_missing x := match x with SSkipMissing s => Some s | _ => None end.
(** [Some None]: automatic, or relative to now. *)
Definition s_created x := match x with SCreatedAuto => Some None | SCreatedAt t => Some (Some t) | _ => None end.
Definition s_expires x := match x with SExpiresRelative o => Some (inl o) | SExpiresAt t => Some (inr t) | _ => None end.

(** ** VerifyingConfig *)
Inductive verify_call :=
| VDigests (d : digest_provider) | VRequireDigest (b : bool) | VValidateDigest (b : bool) | VValidateDate (b : bool)
| VLeeway (ns : Z) | VRequired (l : list component).
Definition verify_do (c : verifying_config) (x : verify_call) : outcome verifying_config :=
  match x with
  | VDigests d => Done (vc_set_digest_provider c d) | VRequireDigest b => Done (vc_set_require_digest c b)
  | VValidateDigest b => Done (vc_set_validate_digest c b) | VValidateDate b => Done (vc_set_validate_date c b)
  | VLeeway ns => Done (vc_set_date_leeway c ns) | VRequired l => vc_set_required c l
  end.
Inductive verify_ran : verifying_config -> list verify_call -> verifying_config -> Prop :=
| ran_nil c : verify_ran c [] c
| ran_cons c x c' xs c'' : verify_do c x = Done c' -> verify_ran c' xs c'' -> verify_ran c (x :: xs) c''.
Definition v_digests x := match x with VDigests s => Some s | _ => None end.
Definition v_require_digest x := match x with VRequireDigest s => Some s | _ => None end.
Definition v_validate_digest x := match x with VValidateDigest s => Some s | _ => None end.
Definition v_validate_date x := match x with VValidateDate s => Some s | _ => None end.
Definition v_leeway x := match x with VLeeway s => Some s | _ => None end.
Definition v_required x := match x with VRequired s => Some s | _ => None end.

(** Structured-field values equal for the user: numbers by value, parameters as a map. *)
Definition equal_decimal (a b : decimal) : Prop :=
  let sg d := (if d_neg d then - Z.of_N (d_mant d) else Z.of_N (d_mant d))%Z in
  (sg a * 10 ^ Z.of_nat (d_scale b) = sg b * 10 ^ Z.of_nat (d_scale a))%Z.
Definition equal_bare (a b : bare) : Prop :=
  match a, b with BDecimal x, BDecimal y => equal_decimal x y | BDecimal _, _ | _, BDecimal _ => False | _, _ => a = b end.
Definition equal_params (p q : list (str * bare)) : Prop :=
  forall k, match value_of k p, value_of k q with Some a, Some b => equal_bare a b | None, None => True | _, _ => False end.
Definition equal_component (a b : component) : Prop :=
  match a, b with
  | CHeader x, CHeader y => x = y
  | CDerived x, CDerived y => equal_bare (it_bare (dc_item x)) (it_bare (dc_item y)) /\ equal_params (it_params (dc_item x)) (it_params (dc_item y))
  | _, _ => False
  end.
(** Parameter maps have no key twice. *)
Definition distinct_params (c : component) : Prop :=
  match c with CHeader _ => True | CDerived d => NoDup (map fst (it_params (dc_item d))) end.

(** [prints c t]: [t] is how the component is written: the name of a header field, the
    structured-field item of a derived component. *)
Definition prints (c : component) (t : str) : Prop :=
  match c with CHeader h => t = h | CDerived d => item_text (dc_item d) t end.

(** The lexicographic order of byte strings. *)
Inductive before : str -> str -> Prop :=
| before_nil c s : before [] (c :: s)
| before_head c d s t : (N_of_ascii c < N_of_ascii d)%N -> before (c :: s) (d :: t)
| before_tail c s t : before s t -> before (c :: s) (c :: t).
(** The order of structured-field values of one type: of the bytes, of the numbers
    ([mantissa / 10^scale] for a decimal), false before true. *)
Inductive value_before : bare -> bare -> Prop :=
| vb_string s t : before s t -> value_before (BString s) (BString t)
| vb_token s t : before s t -> value_before (BToken s) (BToken t)
| vb_bytes s t : before s t -> value_before (BByteSeq s) (BByteSeq t)
| vb_integer x y : (x < y)%Z -> value_before (BInteger x) (BInteger y)
| vb_decimal m s n t : (Z.of_N m * 10 ^ Z.of_nat t < Z.of_N n * 10 ^ Z.of_nat s)%Z ->
    value_before (BDecimal (Dec false m s)) (BDecimal (Dec false n t))
| vb_negative m s n t : (Z.of_N n * 10 ^ Z.of_nat s < Z.of_N m * 10 ^ Z.of_nat t)%Z ->
    value_before (BDecimal (Dec true m s)) (BDecimal (Dec true n t))
| vb_sign m s n t : (m <> 0 \/ n <> 0)%N ->
    value_before (BDecimal (Dec true m s)) (BDecimal (Dec false n t))
| vb_boolean : value_before (BBoolean false) (BBoolean true).
(** Each text before the next. *)
Inductive increasing : list str -> Prop :=
| inc_nil : increasing []
| inc_one t : increasing [t]
| inc_cons s t l : before s t -> increasing (t :: l) -> increasing (s :: t :: l).

(** [required_set l l']: [l'] represents the set of components [l]: it has no component
    not in [l], an equal one for every component in [l], and is in order of the printed
    forms without repetition. *)
Definition required_set (l l' : list component) : Prop :=
  incl l' l /\ (forall x, In x l -> exists y, In y l' /\ equal_component x y)
  /\ exists ts, Forall2 prints l' ts /\ increasing ts.

(** At most one parameter, and no decimals. *)
Definition not_decimal (b : bare) : Prop := match b with BDecimal _ => False | _ => True end.
Definition one_param (c : component) : Prop :=
  match c with
  | CHeader _ => True
  | CDerived d => not_decimal (it_bare (dc_item d))
                  /\ match it_params (dc_item d) with [] => True | [kv] => not_decimal (snd kv) | _ => False end
  end.

(** The parameter calls among configuration calls, and the parameters they leave: each key
    once, in order of first setting, with the value last set. *)
Definition param_calls (calls : list canon_call) : list param_call :=
  flat_map (fun x => match x with CSetParam c => [c] | _ => [] end) calls.
Definition params_set (calls : list param_call) (p : list (str * bare)) : Prop :=
  map fst p = first_occurrences (map (fun c => fst (param_entry c)) calls)
  /\ Forall (fun kv => last_some (entry_of (fst kv)) calls = Some (snd kv)) p.
