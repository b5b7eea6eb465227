(** src/signing.rs. *)
From Verif Require Export Str Sfv Http Component Canonicalize Algorithm Calendar.

(** src/signing.rs:17-32 [ClientRequestLike] (extends [RequestLike]). *)
Record client_request_like (R : Type) := ClientRequestLike {
  cr_rl : request_like R;
  cr_host : R -> option str;
  cr_set_header : R -> str -> str -> R;
  cr_compute_digest : R -> http_digest -> R * option str      (* takes [&mut self] *)
}.
Arguments cr_rl {R}. Arguments cr_host {R}. Arguments cr_set_header {R}. Arguments cr_compute_digest {R}.

(** src/signing.rs:34-49 [SignatureCreated], [get]. *)
Inductive signature_created := CrOmit | CrAutomatic | CrAbsolute (ts : Z).
Definition created_get (c : signature_created) (ts : Z) : option Z :=
  match c with CrOmit => None | CrAutomatic => Some ts | CrAbsolute t => Some t end.

(** src/signing.rs:51-66 [SignatureExpires], [get]. *)
Inductive signature_expires := ExOmit | ExRelative (offset : Z) | ExAbsolute (ts : Z).
Definition expires_get (e : signature_expires) (ts : Z) : option Z :=
  match e with ExOmit => None | ExRelative o => Some (saturating_add ts o) | ExAbsolute t => Some t end.

(** src/signing.rs:70-83 [SigningConfig]. *)
Record signing_config := SigningConfig {
  sc_label : str;
  sc_signature : http_signer;
  sc_digest : http_digest;
  sc_key_id : str;
  sc_nonce : option str;
  sc_components : list component;
  sc_compute_digest : bool;
  sc_add_date : bool;
  sc_add_host : bool;
  sc_skip_missing : bool;
  sc_created : signature_created;
  sc_expires : signature_expires
}.

(** src/signing.rs:94-109 [new]. *)
Definition sc_new (label key_id : str) (alg : http_signer) : signing_config :=
  SigningConfig label alg sha256_digest key_id None [] true true true true CrOmit ExOmit.

(** src/signing.rs:88-90 [new_default]. *)
Definition sc_new_default (label key_id key : str) : signing_config :=
  sc_new label key_id (hmac_sha256_signer key).

(** src/signing.rs:120-349: the setters (each [with_*] calls the matching [set_*]). *)
Definition sc_set_nonce (c : signing_config) (n : str) : signing_config :=              (* 120-128 *)
  SigningConfig (sc_label c) (sc_signature c) (sc_digest c) (sc_key_id c) (Some n) (sc_components c)
    (sc_compute_digest c) (sc_add_date c) (sc_add_host c) (sc_skip_missing c) (sc_created c) (sc_expires c).
Definition sc_set_digest (c : signing_config) (d : http_digest) : signing_config :=     (* 135-143 *)
  SigningConfig (sc_label c) (sc_signature c) d (sc_key_id c) (sc_nonce c) (sc_components c)
    (sc_compute_digest c) (sc_add_date c) (sc_add_host c) (sc_skip_missing c) (sc_created c) (sc_expires c).
Definition sc_set_compute_digest (c : signing_config) (b : bool) : signing_config :=    (* 155-166 *)
  SigningConfig (sc_label c) (sc_signature c) (sc_digest c) (sc_key_id c) (sc_nonce c) (sc_components c)
    b (sc_add_date c) (sc_add_host c) (sc_skip_missing c) (sc_created c) (sc_expires c).
Definition sc_set_add_date (c : signing_config) (b : bool) : signing_config :=          (* 178-189 *)
  SigningConfig (sc_label c) (sc_signature c) (sc_digest c) (sc_key_id c) (sc_nonce c) (sc_components c)
    (sc_compute_digest c) b (sc_add_host c) (sc_skip_missing c) (sc_created c) (sc_expires c).
Definition sc_set_add_host (c : signing_config) (b : bool) : signing_config :=          (* 201-212 *)
  SigningConfig (sc_label c) (sc_signature c) (sc_digest c) (sc_key_id c) (sc_nonce c) (sc_components c)
    (sc_compute_digest c) (sc_add_date c) b (sc_skip_missing c) (sc_created c) (sc_expires c).
Definition sc_set_components (c : signing_config) (l : list component) : signing_config := (* 224-233 *)
  SigningConfig (sc_label c) (sc_signature c) (sc_digest c) (sc_key_id c) (sc_nonce c) l
    (sc_compute_digest c) (sc_add_date c) (sc_add_host c) (sc_skip_missing c) (sc_created c) (sc_expires c).
Definition sc_set_skip_missing (c : signing_config) (b : bool) : signing_config :=      (* 245-256 *)
  SigningConfig (sc_label c) (sc_signature c) (sc_digest c) (sc_key_id c) (sc_nonce c) (sc_components c)
    (sc_compute_digest c) (sc_add_date c) (sc_add_host c) b (sc_created c) (sc_expires c).
Definition sc_set_created (c : signing_config) (x : signature_created) : signing_config :=
  SigningConfig (sc_label c) (sc_signature c) (sc_digest c) (sc_key_id c) (sc_nonce c) (sc_components c)
    (sc_compute_digest c) (sc_add_date c) (sc_add_host c) (sc_skip_missing c) x (sc_expires c).
Definition sc_set_expires (c : signing_config) (x : signature_expires) : signing_config :=
  SigningConfig (sc_label c) (sc_signature c) (sc_digest c) (sc_key_id c) (sc_nonce c) (sc_components c)
    (sc_compute_digest c) (sc_add_date c) (sc_add_host c) (sc_skip_missing c) (sc_created c) x.
Definition sc_set_created_auto (c : signing_config) := sc_set_created c CrAutomatic.                    (* 261-272 *)
Definition sc_set_created_at (c : signing_config) (ts : Z) := sc_set_created c (CrAbsolute ts).          (* 284-295 *)
Definition sc_set_expires_relative (c : signing_config) (o : Z) := sc_set_expires c (ExRelative o).      (* 311-322 *)
Definition sc_set_expires_at (c : signing_config) (ts : Z) := sc_set_expires c (ExAbsolute ts).          (* 338-349 *)

(** src/signing.rs:277-306,327-360: the getters that are not plain field reads. *)
Definition sc_created_auto (c : signing_config) : bool :=
  match sc_created c with CrAutomatic => true | _ => false end.
Definition sc_created_at (c : signing_config) : option Z :=
  match sc_created c with CrAbsolute t => Some t | _ => None end.
Definition sc_expires_relative (c : signing_config) : option Z :=
  match sc_expires c with ExRelative o => Some o | _ => None end.
Definition sc_expires_at (c : signing_config) : option Z :=
  match sc_expires c with ExAbsolute t => Some t | _ => None end.

(** The ambient inputs of one call of [sign]: the two clock readings, in
    nanoseconds ([Utc::now] for the Date header, line 382; [SystemTime::now], line
    426) and the randomness of the signature algorithm. *)
Record sign_env := SignEnv { se_utc : Z; se_sys : Z; se_rnd : N }.

(** [Iterator::filter] with a panicking predicate. *)
Fixpoint ofilter {A} (f : A -> outcome bool) (l : list A) : outcome (list A) :=
  match l with
  | [] => Done []
  | x :: l' => do b <- f x; do r <- ofilter f l'; Done (if b then x :: r else r)
  end.

Section Sign.
  Context {R : Type} (cr : client_request_like R).

  (** src/signing.rs:381-388. *)
  Definition add_date (r : R) (c : signing_config) (env : sign_env) : outcome R :=
    if sc_add_date c then
      do has <- rl_has_component (cr_rl cr) r (CHeader h_date);
      if has then Done r
      else
        do now <- utc_now (se_utc env);
        do v <- unwrap (hvalue_parse (fmt_http_date (now / ns_per_sec)));
        Done (cr_set_header cr r h_date v)
    else Done r.

  (** src/signing.rs:390-398. *)
  Definition add_host (r : R) (c : signing_config) : outcome R :=
    if sc_add_host c then
      do has <- rl_has_component (cr_rl cr) r (CHeader h_host);
      if has then Done r
      else match cr_host cr r with
           | None => Done r
           | Some h => do v <- unwrap (hvalue_parse h); Done (cr_set_header cr r h_host v)
           end
    else Done r.

  (** src/signing.rs:400-410. *)
  Definition add_digest (r : R) (c : signing_config) : outcome R :=
    if sc_compute_digest c then
      do has <- rl_has_component (cr_rl cr) r (CHeader h_digest);
      if has then Done r
      else
        let '(r1, od) := cr_compute_digest cr r (sc_digest c) in
        match od with
        | None => Done r1
        | Some d =>
            do v <- unwrap (hvalue_parse (dg_name (sc_digest c) ++ $"=" ++ d));
            Done (cr_set_header cr r1 h_digest v)
        end
    else Done r.

  (** src/signing.rs:376-423 [add_auto_headers]. *)
  Definition add_auto_headers (r : R) (c : signing_config) (env : sign_env) : outcome (R * list component) :=
    do r1 <- add_date r c env;
    do r2 <- add_host r1 c;
    do r3 <- add_digest r2 c;
    do cs <- (if sc_skip_missing c
              then ofilter (rl_has_component (cr_rl cr) r3) (sc_components c)
              else Done (sc_components c));
    Done (r3, cs).

  (** src/signing.rs:437-462: the canonicalization configuration, or an error. *)
  Definition sign_canon (c : signing_config) (cs : list component) (ts : Z) : result canon_config error :=
    let cc := cc_set_alg (cc_set_components cc_new cs) (sg_name (sc_signature c)) in
    try cc <- match created_get (sc_created c) ts with
              | Some t => if (ts <? t)%Z then Err EInvalidSignatureCreationDate else Ok (cc_set_created cc t)
              | None => Ok cc
              end;
    try cc <- match expires_get (sc_expires c) ts with
              | Some t => if (t <? ts)%Z then Err EInvalidSignatureExpiresDate else Ok (cc_set_expires cc t)
              | None => Ok cc
              end;
    let cc := cc_set_keyid cc (sc_key_id c) in
    Ok (match sc_nonce c with Some n => cc_set_nonce cc n | None => cc end).

  (** src/signing.rs:477: the Signature header text. *)
  Definition sig_header_text (label sig : str) : str := label ++ $"=:" ++ sig ++ $":".

  (** src/signing.rs:433-486 [sign].  The request is modified in place: the result
      carries its final state whatever the outcome (a panic has none). *)
  Definition sign (r : R) (c : signing_config) (env : sign_env) : outcome (R * result unit error) :=
    do (r1, cs) <- add_auto_headers r c env;
    do ts <- unix_timestamp (se_sys env);
    match sign_canon c cs ts with
    | Err e => Done (r1, Err e)
    | Ok cc =>
        do res <- canonicalize (cr_rl cr) r1 cc;
        match res with
        | Err _ => Done (r1, Err ECanonicalize)
        | Ok (base, si) =>
            do si_text <- si_to_string si;
            match hvalue_parse si_text with
            | None => Done (r1, Err ESignatureInputError)
            | Some v =>
                let r2 := cr_set_header cr r1 h_signature_input v in
                let sig := sg_sign (sc_signature c) (se_rnd env) base in
                match hvalue_parse (sig_header_text (sc_label c) sig) with
                | None => Done (r2, Err EConvertHeader)
                | Some w => Done (cr_set_header cr r2 h_signature w, Ok tt)
                end
            end
        end
    end.

  (** src/signing.rs:367-370 [signed]. *)
  Definition signed (r : R) (c : signing_config) (env : sign_env) : outcome (result R error) :=
    do (r', res) <- sign r c env;
    Done (match res with Ok _ => Ok r' | Err e => Err e end).
End Sign.
