(** The log lines of [verify]: src/verifying.rs and src/signature_input.rs with their [info!]
    statements (src/macros.rs:1-6: [log::info!]).  The functions here are those of Verifying.v
    once more, with the lines written so far; lines at level trace are not modelled. *)
From Verif Require Export Verifying.

(** One constructor for each [info!] statement, with the values it prints.  (Lines of
    src/verifying.rs unless noted.) *)
Inductive log_line :=
| LogNoSignatureInput                                 (* 392 *)
| LogUnparsedInput                                    (* src/signature_input.rs:141 *)
| LogMalformedInput                                   (* src/signature_input.rs:153 *)
| LogBadSignatureInput                                (* 399 *)
| LogNoSignature                                      (* 407 *)
| LogMalformedSignature                               (* 370 and 413 *)
| LogLabels                                           (* 421 *)
| LogNoKeyid                                          (* 426 *)
| LogNoAlg                                            (* 431 *)
| LogCreated                                          (* 440 *)
| LogExpires                                          (* 447 *)
| LogUnknownKey (key_id alg : str)                    (* 459 *)
| LogCanonicalization (e : error)                     (* 470 *)
| LogNoKeys                                           (* 485 *)
| LogInvalidSignature                                 (* 487 *)
| LogNotCovered (component : str)                     (* 505 *)
| LogNoDate                                           (* 520 *)
| LogInvalidDate                                      (* 527 *)
| LogDateSkew (ns : Z)                                (* 542 *)
| LogNoDigest                                         (* 601 *)
| LogDigestMismatch                                   (* 605 *)
| LogNoDigestAlgorithm                                (* 611 *)
| LogDigestMissing.                                   (* 628 *)

(** The lines written, and the outcome. *)
Definition logged (A : Type) : Type := list log_line * outcome A.
Definition quietly {A} (x : outcome A) : logged A := ([], x).
Definition log_then {A} (l : list log_line) (x : logged A) : logged A := (l ++ fst x, snd x).
Definition lbind {A B} (x : logged A) (f : A -> logged B) : logged B :=
  match snd x with Done a => log_then (fst x) (f a) | Panic => (fst x, Panic) end.
Notation "'ldo' x <- e ; f" := (lbind e (fun x => f))
  (at level 200, x pattern, e at level 100, f at level 200, right associativity).
(** [.or_else(|| { info!(..); None })?]: on [None], write and return. *)
Definition or_log {A B} (l : list log_line) (x : option A) (f : A -> logged (option B)) : logged (option B) :=
  match x with Some a => f a | None => (l, Done None) end.
Notation "'lask' x <- e 'orlog' l ; f" := (or_log l e (fun x => f))
  (at level 200, x pattern, e at level 100, l at level 100, f at level 200, right associativity).

(** src/signature_input.rs:137-157 [TryFrom<&str>]: an item in place of the list is an error
    without a line (55-66). *)
Definition parse_log (s : str) : list log_line :=
  match parse_dictionary s with
  | None => [LogUnparsedInput]
  | Some [] => [LogMalformedInput]
  | Some _ => []
  end.

(** src/verifying.rs:368-375: the line is written here and by the caller. *)
Definition signature_log : list log_line := [LogMalformedSignature; LogMalformedSignature].

Section Log.
  Context {S Rem : Type} (sr : server_request_like S Rem).

  (** src/verifying.rs:385-490.  Line 485 stands in the branch of an empty list of keys,
      after the return for that case (line 463). *)
  Definition signature_only_log (r : S) (c : verifying_config) (env : verify_env) : logged (option (signature_input * str)) :=
    ldo oinput <- quietly (rl_derive (sr_rl sr) r (CHeader h_signature_input));
    lask input <- oinput orlog [LogNoSignatureInput];
    ldo parsed <- (parse_log input, cc_parse input);
    ldo cc <- match parsed with Ok cc => quietly (Done cc) | Err _ => ([LogBadSignatureInput], Panic) end;
    ldo osig <- quietly (rl_derive (sr_rl sr) r (CHeader h_signature));
    lask sigv <- osig orlog [LogNoSignature];
    lask (sig_label, sig) <- parse_signature_header sigv orlog signature_log;
    if negb (str_eqb (cc_get_label cc) sig_label) then ([LogLabels], Done None)
    else
      lask key_id <- cc_keyid cc orlog [LogNoKeyid];
      lask alg <- cc_alg cc orlog [LogNoAlg];
      ldo ts <- quietly (unix_timestamp (ve_sys env));
      if match cc_created cc with Some t => (ts <? t)%Z | None => false end then ([LogCreated], Done None)
      else if match cc_expires cc with Some t => (t <? ts)%Z | None => false end then ([LogExpires], Done None)
      else
        match vc_keys c key_id with
        | [] => ([LogUnknownKey key_id alg], Done None)
        | keys =>
            ldo res <- quietly (canonicalize (sr_rl sr) r cc);
            match res with
            | Err e => ([LogCanonicalization e], Done None)
            | Ok (base, si) =>
                if existsb (fun k => vf_verify k base sig) keys then ([], Done (Some (si, key_id)))
                else (match keys with [] => [LogNoKeys] | _ => [LogInvalidSignature] end, Done None)
            end
        end.

  (** src/verifying.rs:499-511. *)
  Fixpoint required_log (l : inner_list) (req : list component) : logged bool :=
    match req with
    | [] => ([], Done true)
    | h :: req' =>
        ldo t <- quietly (comp_to_string h);
        match cl_get_item l t with
        | None => ([LogNotCovered t], Done false)
        | Some _ => required_log l req'
        end
    end.

  (** src/verifying.rs:514-548. *)
  Definition date_log (si : signature_input) (c : verifying_config) (env : verify_env) : logged bool :=
    if vc_validate_date c then
      match opt_bind (si_get_param si h_date) as_int with
      | None => ([LogNoDate], Done false)
      | Some d =>
          if chrono_range d then
            ldo now <- quietly (utc_now (ve_utc env));
            if (Z.abs (d * ns_per_sec - now) <=? vc_date_leeway c)%Z then ([], Done true)
            else ([LogDateSkew (d * ns_per_sec - now)], Done false)
          else ([LogInvalidDate], Done false)
      end
    else ([], Done true).

  (** src/verifying.rs:492-551. *)
  Definition except_digest_log (r : S) (c : verifying_config) (env : verify_env) : logged (option str) :=
    ldo o <- signature_only_log r c env;
    lask (si, key_id) <- o orlog [];
    ldo req <- required_log (si_list si) (vc_required c);
    if negb req then ([], Done None)
    else
      ldo dt <- date_log si c env;
      quietly (Done (if dt then Some key_id else None)).

  (** src/verifying.rs:553-638. *)
  Definition verify_log (r : S) (c : verifying_config) (env : verify_env) : logged (result (Rem * str) Rem) :=
    ldo res <- except_digest_log r c env;
    match res with
    | None => ([], Done (Err (sr_complete sr r)))
    | Some key_id =>
        ldo digest <- quietly (rl_derive (sr_rl sr) r (CHeader h_digest));
        match digest with
        | Some dv =>
            if vc_validate_digest c then
              match first_digest (vc_digests c) (split "," dv) with
              | Some (alg, provided) =>
                  let '(od, rem) := sr_complete_with_digest sr r alg in
                  match od with
                  | Some expected => if str_eqb provided expected then ([], Done (Ok (rem, key_id))) else ([LogDigestMismatch], Done (Err rem))
                  | None => ([LogNoDigest], Done (Err rem))
                  end
              | None => ([LogNoDigestAlgorithm], Done (Err (sr_complete sr r)))
              end
            else ([], Done (Ok (sr_complete sr r, key_id)))
        | None =>
            if vc_require_digest c then
              let '(od, rem) := sr_complete_with_digest sr r sha256_digest in
              match od with Some _ => ([LogDigestMissing], Done (Err rem)) | None => ([], Done (Ok (rem, key_id))) end
            else ([], Done (Ok (sr_complete sr r, key_id)))
        end
    end.
End Log.
