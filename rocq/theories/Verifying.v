(** src/verifying.rs. *)
From Verif Require Export Str Sfv Http Component Canonicalize Algorithm Calendar.

(** ** Key providers *)

(** src/verifying.rs:49-54 [KeyProvider]. *)
Definition key_provider := str -> list http_verifier.

(** src/verifying.rs:62-64 [SimpleKeyProvider]: a [HashMap]; only look-ups by key are
    observable, so an association list stands for it. *)
Definition simple_keys := imap (list http_verifier).

(** [HashMap::entry(k).or_default().push(key)] (lines 77, 84). *)
Definition skp_add (m : simple_keys) (key_id : str) (key : http_verifier) : simple_keys :=
  imap_insert m key_id ((match imap_get m key_id with Some l => l | None => [] end) ++ [key]).

(** src/verifying.rs:69-80 [new]. *)
Definition skp_new (l : list (str * http_verifier)) : simple_keys :=
  fold_left (fun m kv => skp_add m (fst kv) (snd kv)) l [].

(** src/verifying.rs:88-90 [clear]. *)
Definition skp_clear (m : simple_keys) : simple_keys := [].

(** src/verifying.rs:93-95 [remove_all]. *)
Definition skp_remove_all (m : simple_keys) (key_id : str) : simple_keys :=
  filter (fun kv => negb (str_eqb (fst kv) key_id)) m.

(** src/verifying.rs:98-102 [provide_keys]. *)
Definition skp_provide (m : simple_keys) : key_provider :=
  fun key_id => match imap_get m key_id with Some l => l | None => [] end.

(** ** Digest providers *)

(** src/verifying.rs:108-112 [DigestProvider]. *)
Definition digest_provider := str -> option http_digest.

(** src/verifying.rs:118-127 [DefaultDigestProvider]. *)
Definition default_digest_provider : digest_provider :=
  fun name =>
    let n := to_ascii_uppercase name in
    if str_eqb n $"SHA-256" then Some sha256_digest
    else if str_eqb n $"SHA-512" then Some sha512_digest
    else None.

(** ** Configuration *)

(** src/verifying.rs:131-139 [VerifyingConfig]; [vc_required] is the content of the
    [BTreeSet] in its order; the leeway is in nanoseconds. *)
Record verifying_config := VerifyingConfig {
  vc_keys : key_provider;
  vc_digests : digest_provider;
  vc_required : list component;
  vc_require_digest : bool;
  vc_validate_digest : bool;
  vc_validate_date : bool;
  vc_date_leeway : Z
}.

(** src/verifying.rs:143-153 [new]. *)
Definition vc_new (kp : key_provider) : verifying_config :=
  VerifyingConfig kp default_digest_provider [] true true true (30 * ns_per_sec).

(** src/verifying.rs:166-279: setters. *)
Definition vc_set_digest_provider (c : verifying_config) (d : digest_provider) : verifying_config :=     (* 166-175 *)
  VerifyingConfig (vc_keys c) d (vc_required c) (vc_require_digest c) (vc_validate_digest c) (vc_validate_date c) (vc_date_leeway c).
Definition vc_set_require_digest (c : verifying_config) (b : bool) : verifying_config :=                 (* 189-201 *)
  VerifyingConfig (vc_keys c) (vc_digests c) (vc_required c) b (vc_validate_digest c) (vc_validate_date c) (vc_date_leeway c).
Definition vc_set_validate_digest (c : verifying_config) (b : bool) : verifying_config :=                (* 215-227 *)
  VerifyingConfig (vc_keys c) (vc_digests c) (vc_required c) (vc_require_digest c) b (vc_validate_date c) (vc_date_leeway c).
Definition vc_set_validate_date (c : verifying_config) (b : bool) : verifying_config :=                  (* 241-253 *)
  VerifyingConfig (vc_keys c) (vc_digests c) (vc_required c) (vc_require_digest c) (vc_validate_digest c) b (vc_date_leeway c).
Definition vc_set_date_leeway (c : verifying_config) (ns : Z) : verifying_config :=                      (* 267-279 *)
  VerifyingConfig (vc_keys c) (vc_digests c) (vc_required c) (vc_require_digest c) (vc_validate_digest c) (vc_validate_date c) ns.

(** [BTreeSet::from_iter] (line 299): a stable sort by [Ord], then of adjacent
    components that are equal ([PartialEq]) only the last is kept.  The comparisons
    print both components and so panic when one cannot be printed. *)
Fixpoint sort_insert (x : component) (l : list component) : outcome (list component) :=
  match l with
  | [] => Done [x]
  | y :: l' =>
      do o <- comp_cmp x y;
      match o with
      | Gt => do r <- sort_insert x l'; Done (y :: r)
      | _ => Done (x :: l)
      end
  end.
Fixpoint sort_components (l : list component) : outcome (list component) :=
  match l with
  | [] => Done []
  | x :: l' => do s <- sort_components l'; sort_insert x s
  end.
Fixpoint dedup_last (l : list component) : list component :=
  match l with
  | x :: ((y :: _) as l') => if comp_eqb x y then dedup_last l' else x :: dedup_last l'
  | _ => l
  end.

(** src/verifying.rs:295-311 [set_required_components]. *)
Definition vc_set_required (c : verifying_config) (l : list component) : outcome verifying_config :=
  do s <- sort_components l;
  Done (VerifyingConfig (vc_keys c) (vc_digests c) (dedup_last s) (vc_require_digest c)
          (vc_validate_digest c) (vc_validate_date c) (vc_date_leeway c)).

(** ** Requests *)

(** src/verifying.rs:320-337 [ServerRequestLike]. *)
Record server_request_like (S Rem : Type) := ServerRequestLike {
  sr_rl : request_like S;
  sr_complete_with_digest : S -> http_digest -> option str * Rem;
  sr_complete : S -> Rem
}.
Arguments sr_rl {S Rem}. Arguments sr_complete_with_digest {S Rem}. Arguments sr_complete {S Rem}.

(** Clock readings of one call of [verify]: [SystemTime::now] (line 378) and
    [Utc::now] (line 535). *)
Record verify_env := VerifyEnv { ve_sys : Z; ve_utc : Z }.

(** src/verifying.rs:368-375 [parse_signature_header]. *)
Definition parse_signature_header (s : str) : option (str * str) :=
  match split_once "=" s with
  | Some (label, sig) => Some (label, trim_matches ":" sig)
  | None => None
  end.

(** Sequencing of [?] on [Option] inside a function that may panic. *)
Definition oobind {A B} (x : outcome (option A)) (f : A -> outcome (option B)) : outcome (option B) :=
  do o <- x; match o with Some a => f a | None => Done None end.
Notation "'ask' x <- e ; f" := (oobind e (fun x => f))
  (at level 200, x pattern, e at level 100, f at level 200, right associativity).

Section Verify.
  Context {S Rem : Type} (sr : server_request_like S Rem).

  (** src/verifying.rs:385-490 [verify_signature_only]: the signature input and the
      key id. *)
  Definition verify_signature_only (r : S) (c : verifying_config) (env : verify_env)
    : outcome (option (signature_input * str)) :=
    ask input <- rl_derive (sr_rl sr) r (CHeader h_signature_input);
    do parsed <- cc_parse input;
    do cc <- match parsed with Ok cc => Done cc | Err _ => Panic end;       (* .ok().unwrap() *)
    ask sigv <- rl_derive (sr_rl sr) r (CHeader h_signature);
    ask (sig_label, sig) <- Done (parse_signature_header sigv);
    if negb (str_eqb (cc_get_label cc) sig_label) then Done None
    else
      ask key_id <- Done (cc_keyid cc);
      ask alg <- Done (cc_alg cc);
      do ts <- unix_timestamp (ve_sys env);
      if match cc_created cc with Some t => (ts <? t)%Z | None => false end then Done None
      else if match cc_expires cc with Some t => (t <? ts)%Z | None => false end then Done None
      else
        match vc_keys c key_id with
        | [] => Done None
        | keys =>
            do res <- canonicalize (sr_rl sr) r cc;
            match res with
            | Err _ => Done None
            | Ok (base, si) =>
                if existsb (fun k => vf_verify k base sig) keys then Done (Some (si, key_id)) else Done None
            end
        end.

  (** src/verifying.rs:499-511: every required component is in the list. *)
  Fixpoint check_required (l : inner_list) (req : list component) : outcome bool :=
    match req with
    | [] => Done true
    | h :: req' =>
        do t <- comp_to_string h;
        match cl_get_item l t with
        | None => Done false
        | Some _ => check_required l req'
        end
    end.

  (** src/verifying.rs:514-548: the [date] parameter. *)
  Definition check_date (si : signature_input) (c : verifying_config) (env : verify_env) : outcome bool :=
    if vc_validate_date c then
      match opt_bind (si_get_param si h_date) as_int with
      | None => Done false
      | Some d =>
          if chrono_range d then
            do now <- utc_now (ve_utc env);
            Done (Z.abs (d * ns_per_sec - now) <=? vc_date_leeway c)%Z
          else Done false
      end
    else Done true.

  (** src/verifying.rs:492-551 [verify_except_digest]. *)
  Definition verify_except_digest (r : S) (c : verifying_config) (env : verify_env) : outcome (option str) :=
    ask (si, key_id) <- verify_signature_only r c env;
    do req <- check_required (si_list si) (vc_required c);
    if negb req then Done None
    else
      do dt <- check_date si c env;
      Done (if dt then Some key_id else None).

  (** src/verifying.rs:575-586: the first entry with a supported algorithm. *)
  Fixpoint first_digest (dp : digest_provider) (parts : list str) : option (http_digest * str) :=
    match parts with
    | [] => None
    | part :: rest =>
        match split_once "=" part with
        | None => first_digest dp rest
        | Some (k, v) =>
            match dp (trim k) with
            | Some d => Some (d, trim v)
            | None => first_digest dp rest
            end
        end
    end.

  (** src/verifying.rs:553-638 [verify]. *)
  Definition verify (r : S) (c : verifying_config) (env : verify_env) : outcome (result (Rem * str) Rem) :=
    do res <- verify_except_digest r c env;
    match res with
    | None => Done (Err (sr_complete sr r))
    | Some key_id =>
        do digest <- rl_derive (sr_rl sr) r (CHeader h_digest);
        match digest with
        | Some dv =>
            if vc_validate_digest c then
              match first_digest (vc_digests c) (split "," dv) with
              | Some (alg, provided) =>
                  let '(od, rem) := sr_complete_with_digest sr r alg in
                  match od with
                  | Some expected => if str_eqb provided expected then Done (Ok (rem, key_id)) else Done (Err rem)
                  | None => Done (Err rem)
                  end
              | None => Done (Err (sr_complete sr r))
              end
            else Done (Ok (sr_complete sr r, key_id))
        | None =>
            if vc_require_digest c then
              let '(od, rem) := sr_complete_with_digest sr r sha256_digest in
              match od with Some _ => Done (Err rem) | None => Done (Ok (rem, key_id)) end
            else Done (Ok (sr_complete sr r, key_id))
        end
    end.
End Verify.
