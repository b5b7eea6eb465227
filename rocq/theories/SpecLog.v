(** Why a request is rejected: the first check that fails, and the line that tells.  Only the
    relations of SpecVerify.v are used.  Nothing here models code. *)
From Verif Require Export SpecVerify Logging.

Section Why.
  Context {S Rem : Type} (sr : server_request_like S Rem) (r : S) (c : verifying_config) (env : verify_env).
  Let derive := rl_derive (sr_rl sr) r.
  Let now := seconds (ve_sys env).

  (** The Signature-Input header reads as [cc]. *)
  Definition input_is (cc : canon_config) : Prop := exists input, header_value sr r $"signature-input" input /\ input_reads input cc.
  (** ... and the Signature header has the text [sig] under the same label. *)
  Definition paired (cc : canon_config) (sig : str) : Prop :=
    input_is cc /\ exists v, header_value sr r $"signature" v /\ signature_member v (cc_get_label cc) sig.

  (** Signature and times, in the order of the checks. *)
  Inductive bad_signature : list log_line -> Prop :=
  | bad_no_input : derive (CHeader $"signature-input") = Done None -> bad_signature [LogNoSignatureInput]
  | bad_no_signature cc : input_is cc -> derive (CHeader $"signature") = Done None -> bad_signature [LogNoSignature]
  | bad_malformed cc v : input_is cc -> header_value sr r $"signature" v -> ~ In "="%char v ->
      bad_signature [LogMalformedSignature; LogMalformedSignature]
  | bad_labels cc v label sig : input_is cc -> header_value sr r $"signature" v -> signature_member v label sig ->
      label <> cc_get_label cc -> bad_signature [LogLabels]
  | bad_keyid cc sig : paired cc sig -> (forall k, value_of $"keyid" (cc_params cc) <> Some (BString k)) -> bad_signature [LogNoKeyid]
  | bad_alg cc sig kid : paired cc sig -> value_of $"keyid" (cc_params cc) = Some (BString kid) ->
      (forall a, value_of $"alg" (cc_params cc) <> Some (BString a)) -> bad_signature [LogNoAlg]
  | bad_created cc sig kid t : signature_headers sr r cc sig kid -> value_of $"created" (cc_params cc) = Some (BInteger t) ->
      (now < t)%Z -> bad_signature [LogCreated]
  | bad_expires cc sig kid t : signature_headers sr r cc sig kid ->
      (forall t, value_of $"created" (cc_params cc) = Some (BInteger t) -> (t <= now)%Z) ->
      value_of $"expires" (cc_params cc) = Some (BInteger t) -> (t < now)%Z -> bad_signature [LogExpires]
  | bad_key cc sig kid alg : signature_headers sr r cc sig kid -> times_ok env cc ->
      value_of $"alg" (cc_params cc) = Some (BString alg) -> vc_keys c kid = [] -> bad_signature [LogUnknownKey kid alg]
  | bad_missing cc sig kid os missing : signature_headers sr r cc sig kid -> times_ok env cc -> vc_keys c kid <> [] ->
      Forall2 (fun q o => derive q = Done o) (cc_components cc) os -> missing = lacking (combine (cc_components cc) os) -> missing <> [] ->
      bad_signature [LogCanonicalization (EMissingComponents missing)]
  | bad_text cc sig kid base : signature_headers sr r cc sig kid -> times_ok env cc -> vc_keys c kid <> [] ->
      signature_base derive (cc_components cc) (cc_params cc) base ->
      (forall k, In k (vc_keys c kid) -> vf_verify k base sig = false) -> bad_signature [LogInvalidSignature].

  (** Signature and times are good. *)
  Definition good_signature (cc : canon_config) (kid : str) : Prop :=
    exists sig, signature_headers sr r cc sig kid /\ times_ok env cc /\ key_accepts sr r c cc sig kid.

  (** All checks, in their order. *)
  Inductive why : list log_line -> Prop :=
  | why_signature l : bad_signature l -> why l
  | why_not_covered cc kid before q after t : good_signature cc kid -> vc_required c = before ++ q :: after ->
      Forall (listed cc) before -> ~ listed cc q ->
      match q with CHeader h => t = h | CDerived d => item_text (dc_item d) t end -> why [LogNotCovered t]
  | why_no_date cc kid : good_signature cc kid -> Forall (listed cc) (vc_required c) -> vc_validate_date c = true ->
      (forall d, value_of $"date" (cc_params cc) <> Some (BInteger d)) -> why [LogNoDate]
  | why_bad_date cc kid d : good_signature cc kid -> Forall (listed cc) (vc_required c) -> vc_validate_date c = true ->
      value_of $"date" (cc_params cc) = Some (BInteger d) -> ~ (first_date <= d <= last_date)%Z -> why [LogInvalidDate]
  | why_skew cc kid d : good_signature cc kid -> Forall (listed cc) (vc_required c) -> vc_validate_date c = true ->
      value_of $"date" (cc_params cc) = Some (BInteger d) -> (first_date <= d <= last_date)%Z ->
      ~ (- vc_date_leeway c <= d * 1000000000 - ve_utc env <= vc_date_leeway c)%Z -> why [LogDateSkew (d * 1000000000 - ve_utc env)]
  | why_no_algorithm cc kid dv : good_signature cc kid -> Forall (listed cc) (vc_required c) -> date_ok c env cc -> vc_validate_digest c = true ->
      header_value sr r $"digest" dv -> (forall alg v, ~ first_entry (vc_digests c) dv alg v) -> why [LogNoDigestAlgorithm]
  | why_no_digest cc kid dv alg v : good_signature cc kid -> Forall (listed cc) (vc_required c) -> date_ok c env cc -> vc_validate_digest c = true ->
      header_value sr r $"digest" dv -> first_entry (vc_digests c) dv alg v -> fst (sr_complete_with_digest sr r alg) = None -> why [LogNoDigest]
  | why_mismatch cc kid dv alg v w : good_signature cc kid -> Forall (listed cc) (vc_required c) -> date_ok c env cc -> vc_validate_digest c = true ->
      header_value sr r $"digest" dv -> first_entry (vc_digests c) dv alg v -> fst (sr_complete_with_digest sr r alg) = Some w -> w <> v ->
      why [LogDigestMismatch]
  | why_digest_missing cc kid : good_signature cc kid -> Forall (listed cc) (vc_required c) -> date_ok c env cc -> vc_require_digest c = true ->
      derive (CHeader $"digest") = Done None -> fst (sr_complete_with_digest sr r sha256_digest) <> None -> why [LogDigestMissing].
End Why.

(** Keys that cannot be told apart by verdicts. *)
Definition same_acceptance (kp kp' : key_provider) : Prop :=
  forall kid, (kp kid = [] <-> kp' kid = [])
    /\ forall base sig, (exists k, In k (kp kid) /\ vf_verify k base sig = true) <-> (exists k, In k (kp' kid) /\ vf_verify k base sig = true).
(** The configuration with other keys. *)
Definition with_keys (c : verifying_config) (kp : key_provider) : verifying_config :=
  VerifyingConfig kp (vc_digests c) (vc_required c) (vc_require_digest c) (vc_validate_digest c) (vc_validate_date c) (vc_date_leeway c).
