(** The results of [verify], and how they change with time, keys and request types.
    Nothing here models code. *)
From Verif Require Export SpecMore SpecReq SpecHist.

Section Outcome.
  Context {S Rem : Type} (sr : server_request_like S Rem) (r : S) (c : verifying_config) (env : verify_env).

  (** Everything except the digest is in order. *)
  Definition authentic (keyid : str) : Prop :=
    exists cc sig, signature_headers sr r cc sig keyid /\ times_ok env cc /\ key_accepts sr r c cc sig keyid
                   /\ Forall (listed cc) (vc_required c) /\ date_ok c env cc.

  (** The Signature-Input header, if there is one, can be read. *)
  Definition input_readable : Prop :=
    forall input, header_value sr r $"signature-input" input ->
    exists label items p, first_member input label items p /\ Forall (fun i => exists q, reads_as i q) items.

  Let digest_of (alg : http_digest) : option str := fst (sr_complete_with_digest sr r alg).
  Let after_digest (alg : http_digest) : Rem := snd (sr_complete_with_digest sr r alg).

  (** The result: the key id when accepted, and in any case what remains of the request. *)
  Inductive verify_outcome : result (Rem * str) Rem -> Prop :=
  | vo_unauthentic : (forall kid, ~ authentic kid) -> verify_outcome (Err (sr_complete sr r))
  | vo_unchecked kid dv : authentic kid -> header_value sr r $"digest" dv -> vc_validate_digest c = false ->
      verify_outcome (Ok (sr_complete sr r, kid))
  | vo_unsupported kid dv : authentic kid -> header_value sr r $"digest" dv -> vc_validate_digest c = true ->
      (forall alg v, ~ first_entry (vc_digests c) dv alg v) -> verify_outcome (Err (sr_complete sr r))
  | vo_match kid dv alg v : authentic kid -> header_value sr r $"digest" dv -> vc_validate_digest c = true ->
      first_entry (vc_digests c) dv alg v -> digest_of alg = Some v -> verify_outcome (Ok (after_digest alg, kid))
  | vo_mismatch kid dv alg v : authentic kid -> header_value sr r $"digest" dv -> vc_validate_digest c = true ->
      first_entry (vc_digests c) dv alg v -> digest_of alg <> Some v -> verify_outcome (Err (after_digest alg))
  | vo_absent kid : authentic kid -> rl_derive (sr_rl sr) r (CHeader $"digest") = Done None -> vc_require_digest c = false ->
      verify_outcome (Ok (sr_complete sr r, kid))
  | vo_no_body kid : authentic kid -> rl_derive (sr_rl sr) r (CHeader $"digest") = Done None -> vc_require_digest c = true ->
      digest_of sha256_digest = None -> verify_outcome (Ok (after_digest sha256_digest, kid))
  | vo_bare_body kid : authentic kid -> rl_derive (sr_rl sr) r (CHeader $"digest") = Done None -> vc_require_digest c = true ->
      digest_of sha256_digest <> None -> verify_outcome (Err (after_digest sha256_digest)).
End Outcome.

(** ** Time *)
(** The moment is within what the parameters and the leeway allow. *)
Definition in_window (c : verifying_config) (p : list (str * bare)) (env : verify_env) : Prop :=
  (forall t, value_of $"created" p = Some (BInteger t) -> (t <= seconds (ve_sys env))%Z)
  /\ (forall t, value_of $"expires" p = Some (BInteger t) -> (seconds (ve_sys env) <= t)%Z)
  /\ (vc_validate_date c = true -> exists d, value_of $"date" p = Some (BInteger d) /\ (first_date <= d <= last_date)%Z
      /\ (d * 1000000000 - vc_date_leeway c <= ve_utc env <= d * 1000000000 + vc_date_leeway c)%Z).
(** One call of [verify] between two others. *)
Definition moment_between (e1 e e2 : verify_env) : Prop :=
  (ve_sys e1 <= ve_sys e <= ve_sys e2 /\ ve_utc e1 <= ve_utc e <= ve_utc e2)%Z.

(** ** Request types *)
(** The same message as a reqwest request and as a MockRequest. *)
Record same_message (q : rq) (m : mock) : Prop := SameMessage {
  sm_method : mr_method m = rq_method q;
  sm_url : mr_url m = rq_url q;
  sm_headers : forall h, first_value (mr_headers m) h = first_value (rq_headers q) h;
  sm_body : match rq_bod q with
            | BNone => mr_body m = None
            | BBytes b => mr_body m = Some b
            | BStream (Some b) => mr_body m = Some b
            | BStream None => False
            end
}.
(** The component "@authority", whatever its parameters. *)
Definition is_authority (q : component) : Prop := exists p, q = CDerived (Derived (Item (BString $"@authority") p)).

(** ** Keys *)
(** The configuration with other keys. *)
Definition with_keys (c : verifying_config) (m : simple_keys) : verifying_config :=
  VerifyingConfig (skp_provide m) (vc_digests c) (vc_required c) (vc_require_digest c) (vc_validate_digest c)
    (vc_validate_date c) (vc_date_leeway c).
(** A call that concerns the key id. *)
Definition concerns (id : str) (c : key_call) : Prop := (exists k, c = AddKey id k) \/ forgets id c.
(** The key id a request names. *)
Definition names_key {S Rem} (sr : server_request_like S Rem) (r : S) (kid : str) : Prop :=
  exists input cc, header_value sr r $"signature-input" input /\ input_reads input cc
    /\ value_of $"keyid" (cc_params cc) = Some (BString kid).
(** The body is not a stream. *)
Definition not_streamed (r : rq) : Prop := forall o, rq_bod r <> BStream o.
