(** What it means for a request to be accepted: the conditions of C12, stated without
    the control flow of [verify].  Only data types, trait records, the grammar of
    SpecGrammar.v and the signature base relation of Spec.v are used. *)
From Verif Require Export Spec SpecGrammar SpecTrim Verifying.

(** "label=:text:": everything before the first "=", and what follows without the
    colons at its two ends. *)
Definition signature_member (s label sig : str) : Prop :=
  ~ In "="%char label
  /\ (exists m n, s = label ++ ["="%char] ++ repeat ":"%char m ++ sig ++ repeat ":"%char n)
  /\ (forall x, sig <> ":"%char :: x) /\ (forall x, sig <> x ++ [":"%char]).

(** Pieces separated by commas. *)
Fixpoint commas (l : list str) : str :=
  match l with
  | [] => []
  | x :: l' => match l' with [] => x | _ :: _ => x ++ [","%char] ++ commas l' end
  end.

(** An entry "name=value" of a Digest header whose algorithm [dp] supports. *)
Definition digest_entry (dp : digest_provider) (entry : str) (alg : http_digest) (value : str) : Prop :=
  exists k v name, entry = k ++ ["="%char] ++ v /\ ~ In "="%char k
    /\ trimmed k name /\ dp name = Some alg /\ trimmed v value.
(** The first supported entry of a Digest header. *)
Definition first_entry (dp : digest_provider) (header : str) (alg : http_digest) (value : str) : Prop :=
  exists before entry after,
    header = commas (before ++ entry :: after)
    /\ Forall (fun p => ~ In ","%char p) (before ++ entry :: after)
    /\ Forall (fun p => ~ exists a v, digest_entry dp p a v) before
    /\ digest_entry dp entry alg value.

(** The dates that can be represented: the years -262143 to 262142 of the Gregorian
    calendar, in seconds since the beginning of 1970. *)
Definition days_before_year (y : Z) : Z := (365 * (y - 1) + (y - 1) / 4 - (y - 1) / 100 + (y - 1) / 400)%Z.
Definition new_year (y : Z) : Z := (86400 * (days_before_year y - days_before_year 1970))%Z.
Definition first_date : Z := new_year (-262143).
Definition last_date : Z := (new_year 262143 - 1)%Z.

(** Seconds of a clock reading in nanoseconds, and the readings for which the clock
    functions do not panic or wrap. *)
Definition seconds (ns : Z) : Z := (ns / 1000000000)%Z.
Definition sys_clock_ok (ns : Z) : Prop := (0 <= ns /\ seconds ns < 2 ^ 63)%Z.
Definition utc_clock_ok (ns : Z) : Prop := (0 <= ns /\ seconds ns <= last_date)%Z.

(** ** Reading Signature-Input *)

(** Lower case. *)
Definition lower_of (c c' : ascii) : Prop :=
  if ((65 <=? N_of_ascii c) && (N_of_ascii c <=? 90))%N then N_of_ascii c' = (N_of_ascii c + 32)%N else c' = c.
(** A field name in any case. *)
Definition field_name (n : str) : Prop :=
  n <> [] /\ (N.of_nat (List.length n) <= 65535)%N /\ Forall tchar n.
(** The component an item of the component list stands for: "@..." keeps the item with
    its parameters; a field name is lower-cased and loses its parameters. *)
Definition reads_as (i : item) (c : component) : Prop :=
  (exists n, it_bare i = BString ("@"%char :: n) /\ c = CDerived (Derived i))
  \/ (exists n h, it_bare i = BString n /\ field_name n /\ Forall2 lower_of n h /\ c = CHeader h).

(** The first member of the dictionary in a Signature-Input text. *)
Definition first_member (s : str) (label : str) (items : list item) (p : list (str * bare)) : Prop :=
  exists others, dictionary_reads s ((label, LEInner (InnerList items p)) :: others).
(** The configuration a Signature-Input text stands for: label, components and
    parameters of the first member. *)
Definition input_reads (s : str) (cc : canon_config) : Prop :=
  exists items, first_member s (cc_get_label cc) items (cc_params cc) /\ cc_label cc <> None
                /\ Forall2 reads_as items (cc_components cc).

Section Accept.
  Context {S Rem : Type} (sr : server_request_like S Rem) (r : S) (c : verifying_config) (env : verify_env).
  Let derive := rl_derive (sr_rl sr) r.

  (** [header h v]: the request has header [h] with value [v]. *)
  Definition header_value (h v : str) : Prop := derive (CHeader h) = Done (Some v).

  (** The signature part: the Signature-Input header parses to [cc]; the Signature
      header has the same label and the text [sig]; key id and alg are strings. *)
  Definition signature_headers (cc : canon_config) (sig keyid : str) : Prop :=
    exists input sigv,
      header_value $"signature-input" input /\ input_reads input cc
      /\ header_value $"signature" sigv /\ signature_member sigv (cc_get_label cc) sig
      /\ value_of $"keyid" (cc_params cc) = Some (BString keyid)
      /\ exists alg, value_of $"alg" (cc_params cc) = Some (BString alg).

  Definition times_ok (cc : canon_config) : Prop :=
    (forall t, value_of $"created" (cc_params cc) = Some (BInteger t) -> (t <= seconds (ve_sys env))%Z)
    /\ (forall t, value_of $"expires" (cc_params cc) = Some (BInteger t) -> (seconds (ve_sys env) <= t)%Z).

  (** One of the provider's keys accepts the text over the signature base. *)
  Definition key_accepts (cc : canon_config) (sig keyid : str) : Prop :=
    exists base k, signature_base derive (cc_components cc) (cc_params cc) base
                   /\ In k (vc_keys c keyid) /\ vf_verify k base sig = true.

  (** A required component is listed: some covered item is the string that the
      required component is printed as. *)
  Definition listed (cc : canon_config) (q : component) : Prop :=
    exists t, match q with CHeader h => t = h | CDerived d => item_text (dc_item d) t end
              /\ exists i, In i (map component_item (cc_components cc)) /\ it_bare i = BString t.

  Definition date_ok (cc : canon_config) : Prop :=
    vc_validate_date c = true ->
    exists d, value_of $"date" (cc_params cc) = Some (BInteger d)
              /\ (first_date <= d <= last_date)%Z
              /\ (- vc_date_leeway c <= d * 1000000000 - ve_utc env <= vc_date_leeway c)%Z.

  Definition digest_ok : Prop :=
    (exists dv, header_value $"digest" dv
       /\ (vc_validate_digest c = true ->
           exists alg v, first_entry (vc_digests c) dv alg v
                         /\ fst (sr_complete_with_digest sr r alg) = Some v))
    \/ (derive (CHeader $"digest") = Done None
        /\ (vc_require_digest c = true -> fst (sr_complete_with_digest sr r sha256_digest) = None)).

  (** All of it. *)
  Definition accepts (keyid : str) : Prop :=
    exists cc sig,
      signature_headers cc sig keyid /\ times_ok cc /\ key_accepts cc sig keyid
      /\ Forall (listed cc) (vc_required c) /\ date_ok cc /\ digest_ok.
End Accept.

(** Clock readings for which [verify] does not panic. *)
Definition clocks_ok (c : verifying_config) (env : verify_env) : Prop :=
  sys_clock_ok (ve_sys env) /\ (vc_validate_date c = true -> utc_clock_ok (ve_utc env)).

(** A verifier that never accepts a signature text containing a comma. *)
Definition rejects_commas (k : http_verifier) : Prop := forall msg sig, In ","%char sig -> vf_verify k msg sig = false.

(** ** Field parameters *)

(** Items that differ at most in the parameters of a header field. *)
Definition field_item (i : item) : Prop := exists n, it_bare i = BString n /\ forall n', n <> "@"%char :: n'.
Definition same_but_field_params (i j : item) : Prop := i = j \/ it_bare i = it_bare j /\ field_item i.


(** ** Requests *)
(** Deriving never panics, except on components whose item is not a string. *)
Definition total_request {R} (rl : request_like R) (r : R) : Prop :=
  (forall h, exists o, rl_derive rl r (CHeader h) = Done o)
  /\ (forall d n, it_bare (dc_item d) = BString n -> exists o, rl_derive rl r (CDerived d) = Done o).

(** A verifier that never accepts a signature text containing a colon. *)
Definition rejects_colons (k : http_verifier) : Prop := forall msg sig, In ":"%char sig -> vf_verify k msg sig = false.
