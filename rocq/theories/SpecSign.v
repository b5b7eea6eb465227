(** What signing does, and the laws of the request traits.  Nothing here models code. *)
From Verif Require Export SpecVerify Signing SpecCalendar.

(** A header value that reads back as text: bytes 32..126 and tab. *)
Definition plain (v : str) : Prop := Forall (fun c => visible c \/ c = "009"%char) v.
(** A legal header value: bytes 32..255 but not 127, and tab. *)
Definition legal_value (v : str) : Prop :=
  Forall (fun c => (32 <= N_of_ascii c /\ N_of_ascii c <> 127)%N \/ c = "009"%char) v.

(** ** Laws *)
(** A client request: [has_component] says whether [derive] gives a value; deriving
    does not panic on proper components and does not look at decimal spellings;
    setting a header to plain text is read back, and changes nothing else; computing
    a digest changes no component and does not look at headers. *)
Record client_laws {R} (cr : client_request_like R) : Prop := ClientLaws {
  cl_has : forall r q, rl_has_component (cr_rl cr) r q
             = match rl_derive (cr_rl cr) r q with
               | Done (Some _) => Done true | Done None => Done false | Panic => Panic end;
  cl_total : forall r, total_request (cr_rl cr) r;
  cl_same : forall r a b, same_component a b -> rl_derive (cr_rl cr) r a = rl_derive (cr_rl cr) r b;
  cl_set : forall r h v, plain v -> rl_derive (cr_rl cr) (cr_set_header cr r h v) (CHeader h) = Done (Some v);
  cl_set_other : forall r h v q, q <> CHeader h -> rl_derive (cr_rl cr) (cr_set_header cr r h v) q = rl_derive (cr_rl cr) r q;
  cl_host : forall r h v, cr_host cr (cr_set_header cr r h v) = cr_host cr r;
  cl_digest : forall r d q, rl_derive (cr_rl cr) (fst (cr_compute_digest cr r d)) q = rl_derive (cr_rl cr) r q;
  cl_digest_set : forall r h v d, snd (cr_compute_digest cr (cr_set_header cr r h v) d) = snd (cr_compute_digest cr r d)
}.
Record server_laws {S Rem} (sr : server_request_like S Rem) : Prop := ServerLaws {
  sl_total : forall r, total_request (sr_rl sr) r;
  sl_same : forall r a b, same_component a b -> rl_derive (sr_rl sr) r a = rl_derive (sr_rl sr) r b
}.

(** ** Times *)
Definition created_at (c : signing_config) (now : Z) : option Z :=
  match sc_created c with CrOmit => None | CrAutomatic => Some now | CrAbsolute t => Some t end.
(** A 64-bit sum that saturates. *)
Definition clamp (z : Z) : Z :=
  if (2 ^ 63 - 1 <? z)%Z then (2 ^ 63 - 1)%Z else if (z <? - 2 ^ 63)%Z then (- 2 ^ 63)%Z else z.
Definition expires_at (c : signing_config) (now : Z) : option Z :=
  match sc_expires c with ExOmit => None | ExRelative o => Some (clamp (now + o)) | ExAbsolute t => Some t end.
Definition created_late (c : signing_config) (now : Z) : Prop := exists t, created_at c now = Some t /\ (now < t)%Z.
Definition expires_early (c : signing_config) (now : Z) : Prop := exists t, expires_at c now = Some t /\ (t < now)%Z.

(** ** The parameters a signature made at [now] carries, in order *)
Definition opt_param {A} (k : str) (f : A -> bare) (o : option A) : list (str * bare) :=
  match o with Some a => [(k, f a)] | None => [] end.
Definition stamp (c : signing_config) (now : Z) : list (str * bare) :=
  [($"alg", BString (sg_name (sc_signature c)))]
  ++ opt_param $"created" BInteger (created_at c now)
  ++ opt_param $"expires" BInteger (expires_at c now)
  ++ [($"keyid", BString (sc_key_id c))]
  ++ opt_param $"nonce" BToken (sc_nonce c).

(** [keeps P l l']: [l'] is the sublist of the elements of [l] with [P]. *)
Inductive keeps {A} (P : A -> Prop) : list A -> list A -> Prop :=
| keeps_nil : keeps P [] []
| keeps_yes x l l' : P x -> keeps P l l' -> keeps P (x :: l) (x :: l')
| keeps_no x l l' : ~ P x -> keeps P l l' -> keeps P (x :: l) l'.

Definition has_value (derive : component -> outcome (option str)) (q : component) : Prop :=
  exists v, derive q = Done (Some v).

(** [covered]: the components a signature covers, given the values it is computed on. *)
Definition covered (derive : component -> outcome (option str)) (c : signing_config) (cs : list component) : Prop :=
  if sc_skip_missing c then keeps (has_value derive) (sc_components c) cs else cs = sc_components c.

(** The automatic headers: [r1] is [r], except that date, host and digest may have
    been added where they had no value. *)
Definition auto_changed {R} (rl : request_like R) (c : signing_config) (r r1 : R) : Prop :=
  forall q, rl_derive rl r1 q = rl_derive rl r q
    \/ rl_derive rl r q = Done None
       /\ (q = CHeader $"date" /\ sc_add_date c = true
           \/ q = CHeader $"host" /\ sc_add_host c = true
           \/ q = CHeader $"digest" /\ sc_compute_digest c = true).

(** The Signature header text. *)
Definition signature_text (c : signing_config) (rnd : N) (base : str) : str :=
  sc_label c ++ $"=:" ++ sg_sign (sc_signature c) rnd base ++ $":".

(** The values a signature is computed on, given the request before and after [sign]:
    automatic headers are already there, the two signature headers are not. *)
Definition signed_view {R} (rl : request_like R) (before after : R) (q : component) : outcome (option str) :=
  match q with
  | CHeader h =>
      if list_eq_dec ascii_dec h $"signature" then rl_derive rl before q
      else if list_eq_dec ascii_dec h $"signature-input" then rl_derive rl before q
      else rl_derive rl after q
  | CDerived _ => rl_derive rl after q
  end.

(** The signature bases that the values [view] and [view'] give for the components which a
    signature made at [now] on the values [view] covers; they are different. *)
Definition two_bases (view view' : component -> outcome (option str)) (c : signing_config) (now : Z) (m1 m2 : str) : Prop :=
  m1 <> m2 /\ exists cs, covered view c cs /\ signature_base view cs (stamp c now) m1 /\ signature_base view' cs (stamp c now) m2.

Definition signature_header (q : component) : Prop := q = CHeader $"signature" \/ q = CHeader $"signature-input".

(** The automatic headers can be added: clocks in range, readable host and digest texts. *)
Definition auto_safe {R} (cr : client_request_like R) (r : R) (c : signing_config) (env : sign_env) : Prop :=
  sys_clock_ok (se_sys env) /\ (sc_add_date c = true -> utc_clock_ok (se_utc env))
  /\ (forall h, cr_host cr r = Some h -> plain h)
  /\ (forall d, snd (cr_compute_digest cr r (sc_digest c)) = Some d -> plain (dg_name (sc_digest c) ++ $"=" ++ d)).

(** The component has a value once the automatic headers have been added. *)
Definition available {R} (cr : client_request_like R) (r : R) (c : signing_config) (q : component) : Prop :=
  has_value (rl_derive (cr_rl cr) r) q
  \/ q = CHeader $"date" /\ sc_add_date c = true
  \/ q = CHeader $"host" /\ sc_add_host c = true /\ cr_host cr r <> None
  \/ q = CHeader $"digest" /\ sc_compute_digest c = true /\ snd (cr_compute_digest cr r (sc_digest c)) <> None.

(** A component whose item is a string, resp. a header name of printable characters. *)
Definition proper_component (q : component) : Prop :=
  match q with CHeader h => Forall visible h | CDerived d => exists n, it_bare (dc_item d) = BString n end.

(** Something the structured-field printer cannot print: a parameter of the signature,
    or a derived component that the request has. *)
Definition unprintable {R} (rl : request_like R) (r : R) (c : signing_config) (now : Z) : Prop :=
  ~ (exists t, params_text (stamp c now) t)
  \/ exists d, In (CDerived d) (sc_components c) /\ has_value (rl_derive rl r) (CDerived d) /\ ~ exists t, item_text (dc_item d) t.

(** What structured fields can represent of the parameters of a signature. *)
Definition small_time (z : Z) : Prop := (- 999999999999999 <= z <= 999999999999999)%Z.
Definition stamp_printable (c : signing_config) (now : Z) : Prop :=
  Forall visible (sg_name (sc_signature c)) /\ Forall visible (sc_key_id c)
  /\ (forall t, created_at c now = Some t -> small_time t)
  /\ (forall t, expires_at c now = Some t -> small_time t)
  /\ (forall n, sc_nonce c = Some n -> token_text n n).

(** A signature text that does not touch the colons around it. *)
Definition clean_signature (sig : str) : Prop := (forall x, sig <> ":"%char :: x) /\ (forall x, sig <> x ++ [":"%char]).

(** The verifier [vf] accepts what the signer [sg] produces (with randomness [rnd]), and
    that is a text fit for a Signature header. *)
Definition matching (sg : http_signer) (rnd : N) (vf : http_verifier) : Prop :=
  forall m, let sig := sg_sign sg rnd m in plain sig /\ clean_signature sig /\ vf_verify vf m sig = true.

(** Every covered component value has as many line feeds in one request as in the other.
    (Only [@query-params] values can have any, see C34.) *)
Definition same_line_feeds (view view' : component -> outcome (option str)) (cs : list component) : Prop :=
  forall q v w, In q cs -> view q = Done (Some v) -> view' q = Done (Some w) -> lf_count v = lf_count w.

(** The same text with a year past 9999: all its digits, after a plus sign. *)
Definition late_date (secs : Z) (t : str) : Prop :=
  exists (n : nat) y ys m d hh mm ss,
    (secs = Z.of_nat n * 86400 + hh * 3600 + mm * 60 + ss)%Z
    /\ (0 <= hh < 24)%Z /\ (0 <= mm < 60)%Z /\ (0 <= ss < 60)%Z
    /\ date_after n = (y, m, d) /\ (9999 < y)%Z /\ digits ys (Z.to_N y)
    /\ t = weekday_after n ++ $", " ++ two d ++ $" " ++ nth (Z.to_nat (m - 1)) months [] ++ $" +" ++ ys
           ++ $" " ++ two hh ++ $":" ++ two mm ++ $":" ++ two ss ++ $" GMT".
