(** The log at level trace: src/canonicalize.rs and src/verifying.rs with their [trace!] and
    [info!] statements, for a program that has both levels switched on.  The functions are those
    of Canonicalize.v, Signing.v and Verifying.v once more, with the lines written so far. *)
From Verif Require Export Logging Signing Utf8.

(** One constructor for each [trace!] statement, with the values it prints. *)
Inductive trace_line :=
| TrMissing (missing : list component)                (* src/canonicalize.rs:209-212 *)
| TrBytes (base : str)                                (* 237 *)
| TrText (base : str)                                 (* 238-241 *)
| TrInput (si : signature_input)                      (* 242 *)
| TrVerifying (base : str)                            (* src/verifying.rs:473-476 *)
| TrInfo (l : log_line).                              (* the lines of Logging.v *)

Definition traced (A : Type) : Type := list trace_line * outcome A.
Definition silent {A} (x : outcome A) : traced A := ([], x).
Definition trace_then {A} (l : list trace_line) (x : traced A) : traced A := (l ++ fst x, snd x).
Definition tbind {A B} (x : traced A) (f : A -> traced B) : traced B :=
  match snd x with Done a => trace_then (fst x) (f a) | Panic => (fst x, Panic) end.
Notation "'tdo' x <- e ; f" := (tbind e (fun x => f))
  (at level 200, x pattern, e at level 100, f at level 200, right associativity).
(** A part that writes lines at level info only. *)
Definition informs {A} (x : logged A) : traced A := (map TrInfo (fst x), snd x).
Definition or_trace {A B} (l : list log_line) (x : option A) (f : A -> traced (option B)) : traced (option B) :=
  match x with Some a => f a | None => (map TrInfo l, Done None) end.
Notation "'task' x <- e 'orlog' l ; f" := (or_trace l e (fun x => f))
  (at level 200, x pattern, e at level 100, l at level 100, f at level 200, right associativity).

(** [String::from_utf8(..).expect(..)] inside the arguments of [trace!]: evaluated when the
    level is on. *)
Definition write_text (line : str -> trace_line) (base : str) : traced unit :=
  if utf8_valid base then ([line base], Done tt) else ([], Panic).

(** src/canonicalize.rs:192-244. *)
Definition canonicalize_traced {R} (rl : request_like R) (r : R) (c : canon_config)
  : traced (result (str * signature_input) error) :=
  tdo (found, missing) <- silent (derive_all rl r (cc_components c));
  match missing with
  | _ :: _ => ([TrMissing missing], Done (Err (EMissingComponents missing)))
  | [] =>
      let si := cc_to_signature_input c in
      tdo sp <- silent (cl_to_string (si_list si));
      tdo ls <- silent (omap base_line (found ++ [(CDerived (dc_new AT_SIGNATURE_PARAMS), sp)]));
      let base := join [ch_lf] ls in
      tdo _ <- ([TrBytes base], Done tt);
      tdo _ <- write_text TrText base;
      ([TrInput si], Done (Ok (base, si)))
  end.

(** src/signing.rs:433-486 [sign]: no lines of its own. *)
Definition sign_traced {R} (cr : client_request_like R) (r : R) (c : signing_config) (env : sign_env) : traced (R * result unit error) :=
  tdo (r1, cs) <- silent (add_auto_headers cr r c env);
  tdo ts <- silent (unix_timestamp (se_sys env));
  match sign_canon c cs ts with
  | Err e => silent (Done (r1, Err e))
  | Ok cc =>
      tdo res <- canonicalize_traced (cr_rl cr) r1 cc;
      match res with
      | Err _ => silent (Done (r1, Err ECanonicalize))
      | Ok (base, si) =>
          tdo si_text <- silent (si_to_string si);
          match hvalue_parse si_text with
          | None => silent (Done (r1, Err ESignatureInputError))
          | Some v =>
              let r2 := cr_set_header cr r1 h_signature_input v in
              let sig := sg_sign (sc_signature c) (se_rnd env) base in
              match hvalue_parse (sig_header_text (sc_label c) sig) with
              | None => silent (Done (r2, Err EConvertHeader))
              | Some w => silent (Done (cr_set_header cr r2 h_signature w, Ok tt))
              end
          end
      end
  end.

Section Trace.
  Context {S Rem : Type} (sr : server_request_like S Rem).

  (** src/verifying.rs:385-490. *)
  Definition signature_only_traced (r : S) (c : verifying_config) (env : verify_env) : traced (option (signature_input * str)) :=
    tdo oinput <- silent (rl_derive (sr_rl sr) r (CHeader h_signature_input));
    task input <- oinput orlog [LogNoSignatureInput];
    tdo parsed <- informs (parse_log input, cc_parse input);
    tdo cc <- match parsed with Ok cc => silent (Done cc) | Err _ => informs ([LogBadSignatureInput], Panic) end;
    tdo osig <- silent (rl_derive (sr_rl sr) r (CHeader h_signature));
    task sigv <- osig orlog [LogNoSignature];
    task (sig_label, sig) <- parse_signature_header sigv orlog signature_log;
    if negb (str_eqb (cc_get_label cc) sig_label) then informs ([LogLabels], Done None)
    else
      task key_id <- cc_keyid cc orlog [LogNoKeyid];
      task alg <- cc_alg cc orlog [LogNoAlg];
      tdo ts <- silent (unix_timestamp (ve_sys env));
      if match cc_created cc with Some t => (ts <? t)%Z | None => false end then informs ([LogCreated], Done None)
      else if match cc_expires cc with Some t => (t <? ts)%Z | None => false end then informs ([LogExpires], Done None)
      else
        match vc_keys c key_id with
        | [] => informs ([LogUnknownKey key_id alg], Done None)
        | keys =>
            tdo res <- canonicalize_traced (sr_rl sr) r cc;
            match res with
            | Err e => informs ([LogCanonicalization e], Done None)
            | Ok (base, si) =>
                tdo _ <- write_text TrVerifying base;
                if existsb (fun k => vf_verify k base sig) keys then silent (Done (Some (si, key_id)))
                else informs (match keys with [] => [LogNoKeys] | _ => [LogInvalidSignature] end, Done None)
            end
        end.

  (** src/verifying.rs:492-551: lines at level info only. *)
  Definition except_digest_traced (r : S) (c : verifying_config) (env : verify_env) : traced (option str) :=
    tdo o <- signature_only_traced r c env;
    task (si, key_id) <- o orlog [];
    tdo req <- informs (required_log (si_list si) (vc_required c));
    if negb req then silent (Done None)
    else
      tdo dt <- informs (date_log si c env);
      silent (Done (if dt then Some key_id else None)).

  (** src/verifying.rs:553-638: the same. *)
  Definition verify_traced (r : S) (c : verifying_config) (env : verify_env) : traced (result (Rem * str) Rem) :=
    tdo res <- except_digest_traced r c env;
    match res with
    | None => silent (Done (Err (sr_complete sr r)))
    | Some key_id =>
        tdo digest <- silent (rl_derive (sr_rl sr) r (CHeader h_digest));
        match digest with
        | Some dv =>
            if vc_validate_digest c then
              match first_digest (vc_digests c) (split "," dv) with
              | Some (alg, provided) =>
                  let '(od, rem) := sr_complete_with_digest sr r alg in
                  match od with
                  | Some expected => if str_eqb provided expected then silent (Done (Ok (rem, key_id))) else informs ([LogDigestMismatch], Done (Err rem))
                  | None => informs ([LogNoDigest], Done (Err rem))
                  end
              | None => informs ([LogNoDigestAlgorithm], Done (Err (sr_complete sr r)))
              end
            else silent (Done (Ok (sr_complete sr r, key_id)))
        | None =>
            if vc_require_digest c then
              let '(od, rem) := sr_complete_with_digest sr r sha256_digest in
              match od with Some _ => informs ([LogDigestMissing], Done (Err rem)) | None => silent (Done (Ok (rem, key_id))) end
            else silent (Done (Ok (sr_complete sr r, key_id)))
        end
    end.
End Trace.
