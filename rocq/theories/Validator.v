(** httpsig-validator/src/main.rs. *)
From Verif Require Export Mock KeyFile.

(** Lines 24-28 [Mode]. *)
Inductive mode := MCanonicalize | MSign | MVerify.

(** Lines 32-77 [Opt], as command-line parsing makes it (CommandLine.v).
    [op_in_file], [op_private_key] and [op_public_key] are file names. *)
Record opt := Opt {
  op_mode : mode;
  op_in_file : option str;
  op_headers : option (option str);
  op_key_id : option str;
  op_private_key : option str;
  op_public_key : option str;
  op_label : option str;
  op_algorithm : option str;
  op_created : option Z;
  op_expires : option Z;
  op_nonce : option str
}.

(** What the validator gets from outside: files, the key parsers and signature primitives
    of ring (default feature "ring") and the URL parser. *)
Record world := World {
  w_read : str -> option str;                                   (* fs::read *)
  w_ring : ring_keys;
  w_crypto : crypto;
  w_url : url_parser;
  w_trace : bool                                                (* RUST_LOG, line 311 *)
}.

(** Errors: the texts of [AppError::BadArg], and everything else. *)
Inductive verror := VBadArg (s : str) | VParse | VIo | VKey | VSig.

(** Lines 83-86: [map(parse).collect::<Result<_, _>>()]. *)
Fixpoint parse_all (l : list str) : option (list component) :=
  match l with
  | [] => Some []
  | s :: l' => match comp_from_str s, parse_all l' with
               | Ok c, Some cs => Some (c :: cs)
               | _, _ => None
               end
  end.

(** Lines 80-94 [parse_headers]. *)
Definition parse_headers (o : opt) : result (option (list component)) verror :=
  match op_headers o with
  | None => Ok None
  | Some None => Ok (Some [])
  | Some (Some h) =>
      match parse_all (split_ascii_whitespace h) with
      | Some cs => Ok (Some cs)
      | None => Err VParse
      end
  end.

(** Lines 117-123, 160-165, 239-244: the names that are recognised (the same three times). *)
Definition canon_algs : list str :=
  [$"rsa-v1_5-sha256"; $"rsa-v1_5-sha512"; $"rsa-pss-sha256"; $"rsa-pss-sha512"; $"ecdsa-p256-sha256"; $"hmac-sha256"].
Definition known_alg (a : str) : bool := existsb (str_eqb a) canon_algs.

(** Lines 96-147 [canonicalize_config]. *)
Definition canonicalize_config (o : opt) : result canon_config verror :=
  let cc := cc_new in
  let cc := match op_created o with Some t => cc_set_created cc t | None => cc end in
  let cc := match op_expires o with Some t => cc_set_expires cc t | None => cc end in
  try oc <- parse_headers o;
  let cc := match oc with Some cs => cc_set_components cc cs | None => cc end in
  let cc := match op_nonce o with Some n => cc_set_nonce cc n | None => cc end in
  let cc := match op_label o with Some l => cc_set_label cc l | None => cc end in
  let cc := match op_key_id o with Some k => cc_set_keyid cc k | None => cc end in
  try cc <- match op_algorithm o with
            | Some a => if known_alg a then Ok (cc_set_alg cc a) else Err (VBadArg ($"Unknown algorithm: " ++ a))
            | None => Err (VBadArg $"No algorithm provided")
            end;
  Ok (match oc with Some cs => cc_set_components cc cs | None => cc_set_components cc [] end).

(** The RSA type named on the command line (lines 176-187, 258-280). *)
Definition rsa_type (a : str) : option key_type :=
  if str_eqb a $"rsa-v1_5-sha256" then Some RsaSha256
  else if str_eqb a $"rsa-v1_5-sha512" then Some RsaSha512
  else if str_eqb a $"rsa-pss-sha256" then Some RsaPssSha256
  else if str_eqb a $"rsa-pss-sha512" then Some RsaPssSha512
  else None.

(** [if let Some(key) = file { Some(fs::read(key)?) } else { None }] (lines 153-157, 228-234). *)
Definition read_key (w : world) (file : option str) : result (option str) verror :=
  match file with
  | None => Ok None
  | Some f => match w_read w f with Some d => Ok (Some d) | None => Err VIo end
  end.

(** Lines 159-173, 238-252: unknown names are errors. *)
Definition check_alg (a : option str) : result unit verror :=
  match a with
  | None => Ok tt
  | Some a => if known_alg a then Ok tt else Err (VBadArg ($"Unknown algorithm: " ++ a))
  end.

(** Lines 149-223 [signing_config]. *)
Definition signing_config_of (w : world) (o : opt) : result signing_config verror :=
  let key_id := match op_key_id o with Some k => k | None => [] end in
  let label := match op_label o with Some l => l | None => $"sig" end in
  try kd <- read_key w (op_private_key o);
  try _ <- check_alg (op_algorithm o);
  try c <- match op_algorithm o, kd with
           | Some a, Some pkey =>
               match rsa_type a with
               | Some t => match sign_new_pkcs8_pem (w_crypto w) (w_ring w) t pkey with
                           | Some k => Ok (sc_new label key_id k)
                           | None => Err VKey
                           end
               | None => Err (VBadArg ($"Unsupported algorithm: " ++ a))
               end
           | Some _, None => Err (VBadArg $"No key provided")
           | None, _ => Err (VBadArg $"No algorithm provided")
           end;
  try oc <- parse_headers o;
  let c := match oc with Some cs => sc_set_components c cs | None => c end in
  let c := match op_created o with Some t => sc_set_created_at c t | None => c end in
  let c := match op_expires o with Some t => sc_set_expires_at c t | None => c end in
  let c := sc_set_add_date c false in
  let c := sc_set_compute_digest c false in
  let c := sc_set_add_host c false in
  Ok (sc_set_skip_missing c false).

(** Lines 225-304 [verification_config]. *)
Definition verification_config_of (w : world) (o : opt) : result verifying_config verror :=
  let key_id := match op_key_id o with Some k => k | None => [] end in
  try kd <- read_key w (op_public_key o);
  try _ <- check_alg (op_algorithm o);
  try kp <- match op_algorithm o, kd with
            | Some a, Some pkey =>
                match rsa_type a with
                | Some t =>
                    let key := match t with
                               | RsaSha256 => match verify_new_spki_pem (w_crypto w) t pkey with
                                              | Some k => Some k
                                              | None => verify_new_pkcs1_pem (w_crypto w) t pkey
                                              end
                               | _ => verify_new_pkcs1_pem (w_crypto w) t pkey
                               end in
                    match key with
                    | Some k => Ok (skp_add [] key_id k)
                    | None => Err VKey
                    end
                | None => Err (VBadArg ($"Unknown key type: " ++ a))
                end
            | Some _, None => Err (VBadArg $"No key provided")
            | None, _ => Ok []
            end;
  let c := vc_new (skp_provide kp) in
  let c := vc_set_require_digest c false in
  Ok (vc_set_validate_date c false).

(** Lines 310-342 [main] with [stdin] on standard input: what has been written to standard
    output, and the error it ends with, if any (non-zero exit status).  Failing reads and
    writes of the standard streams: Io.v. *)
Definition main (w : world) (o : opt) (stdin : str) (se : sign_env) (ve : verify_env) : outcome (str * option verror) :=
  do input <- match op_in_file o with
              | Some f => unwrap (w_read w f)                   (* expect("Failed to open file") *)
              | None => Done stdin
              end;
  do or <- from_reader (w_trace w) (w_url w) input;
  do req <- unwrap or;                                          (* expect("Failed to read request ...") *)
  match op_mode o with
  | MCanonicalize =>
      match canonicalize_config o with
      | Err e => Done ([], Some e)
      | Ok cc =>
          do res <- canonicalize mr_rl req cc;
          Done (match res with Ok (base, _) => (base, None) | Err _ => ([], Some VSig) end)
      end
  | MSign =>
      match signing_config_of w o with
      | Err e => Done ([], Some e)
      | Ok c =>
          do (req', res) <- sign mr_client req c se;
          Done (match res with
                | Err _ => ([], Some VSig)
                | Ok _ => let '(out, ok) := write_out req' in (out, if ok then None else Some VIo)
                end)
      end
  | MVerify =>
      match verification_config_of w o with
      | Err e => Done ([], Some e)
      | Ok c =>
          do res <- verify mr_server req c ve;
          Done (match res with Ok _ => ([], None) | Err _ => ([], Some VSig) end)
      end
  end.
(** The output of a run that succeeds, or its error. *)
Definition run (w : world) (o : opt) (stdin : str) (se : sign_env) (ve : verify_env) : outcome (result str verror) :=
  do (out, e) <- main w o stdin se ve;
  Done (match e with None => Ok out | Some e => Err e end).
