(** The command line of the validator.  Nothing here models code. *)
From Verif Require Export SpecText SpecVerify SpecSign Validator.

(** The algorithm names the validator knows, and the types of the four it can load keys for. *)
Definition known_names : list str :=
  [$"rsa-pss-sha256"; $"rsa-pss-sha512"; $"rsa-v1_5-sha256"; $"rsa-v1_5-sha512"; $"hmac-sha256"; $"ecdsa-p256-sha256"].
Inductive loads : str -> key_type -> Prop :=
| loads_15_256 : loads $"rsa-v1_5-sha256" RsaSha256
| loads_15_512 : loads $"rsa-v1_5-sha512" RsaSha512
| loads_pss_256 : loads $"rsa-pss-sha256" RsaPssSha256
| loads_pss_512 : loads $"rsa-pss-sha512" RsaPssSha512.

(** The component a word names: a header field, or a derived component written as the
    structured-field item "@name";parameters. *)
Definition component_text (w : str) (c : component) : Prop :=
  (exists h, spelled w h /\ c = CHeader h)
  \/ exists i, (exists s, w = [ch_quote; "@"%char] ++ s) /\ item_field_reads w i /\ c = CDerived (Derived i).
(** The components given with [--headers]. *)
Inductive given (o : opt) : option (list component) -> Prop :=
| given_not : op_headers o = None -> given o None
| given_empty : op_headers o = Some None -> given o (Some [])
| given_words h ws cs : op_headers o = Some (Some h) -> wordlist h ws -> Forall2 component_text ws cs -> given o (Some cs).
Definition bad_headers (o : opt) : Prop :=
  exists h ws w, op_headers o = Some (Some h) /\ wordlist h ws /\ In w ws /\ forall c, ~ component_text w c.

Definition or_else {A} (d : A) (o : option A) : A := match o with Some a => a | None => d end.

(** A key file: named and readable, not named, or unreadable. *)
Definition key_file (w : world) (f : option str) (pem : str) : Prop := exists n, f = Some n /\ w_read w n = Some pem.
Definition unreadable (w : world) (f : option str) : Prop := exists n, f = Some n /\ w_read w n = None.

(** ** sign *)
Inductive sign_opts (w : world) (o : opt) : result signing_config verror -> Prop :=
| sign_ok a t pem key oc : op_algorithm o = Some a -> loads a t -> key_file w (op_private_key o) pem -> sign_new_pkcs8_pem (w_crypto w) (w_ring w) t pem = Some key -> given o oc ->
    sign_opts w o (Ok (SigningConfig (or_else $"sig" (op_label o)) key sha256_digest (or_else [] (op_key_id o))
      None (or_else [] oc) false false false false
      (match op_created o with Some t => CrAbsolute t | None => CrOmit end)
      (match op_expires o with Some t => ExAbsolute t | None => ExOmit end)))
| sign_io : unreadable w (op_private_key o) -> sign_opts w o (Err VIo)
| sign_unknown a : ~ unreadable w (op_private_key o) -> op_algorithm o = Some a -> ~ In a known_names ->
    sign_opts w o (Err (VBadArg ($"Unknown algorithm: " ++ a)))
| sign_unsupported a pem : key_file w (op_private_key o) pem -> op_algorithm o = Some a -> In a known_names -> (forall t, ~ loads a t) ->
    sign_opts w o (Err (VBadArg ($"Unsupported algorithm: " ++ a)))
| sign_no_key a : op_private_key o = None -> op_algorithm o = Some a -> In a known_names -> sign_opts w o (Err (VBadArg $"No key provided"))
| sign_no_alg : ~ unreadable w (op_private_key o) -> op_algorithm o = None -> sign_opts w o (Err (VBadArg $"No algorithm provided"))
| sign_bad_key a t pem : op_algorithm o = Some a -> loads a t -> key_file w (op_private_key o) pem -> sign_new_pkcs8_pem (w_crypto w) (w_ring w) t pem = None -> sign_opts w o (Err VKey)
| sign_bad_headers a t pem key : op_algorithm o = Some a -> loads a t -> key_file w (op_private_key o) pem -> sign_new_pkcs8_pem (w_crypto w) (w_ring w) t pem = Some key ->
    bad_headers o -> sign_opts w o (Err VParse).

(** ** verify *)
(** RsaSha256 keys may be SPKI or PKCS#1, the others PKCS#1. *)
Inductive public_key (w : world) : key_type -> str -> option http_verifier -> Prop :=
| public_spki pem k : verify_new_spki_pem (w_crypto w) RsaSha256 pem = Some k -> public_key w RsaSha256 pem (Some k)
| public_fallback pem : verify_new_spki_pem (w_crypto w) RsaSha256 pem = None ->
    public_key w RsaSha256 pem (verify_new_pkcs1_pem (w_crypto w) RsaSha256 pem)
| public_pkcs1 t pem : t <> RsaSha256 -> public_key w t pem (verify_new_pkcs1_pem (w_crypto w) t pem).
(** The verifying configuration with these keys. *)
Definition one_key (id : str) (k : http_verifier) : key_provider := fun i => if str_eqb id i then [k] else [].
Definition verifies_with (c : verifying_config) (keys : key_provider) : Prop :=
  (forall id, vc_keys c id = keys id) /\ vc_digests c = default_digest_provider /\ vc_required c = []
  /\ vc_require_digest c = false /\ vc_validate_digest c = true /\ vc_validate_date c = false.
Inductive verify_opts (w : world) (o : opt) : result key_provider verror -> Prop :=
| verify_ok a t pem key : op_algorithm o = Some a -> loads a t -> key_file w (op_public_key o) pem -> public_key w t pem (Some key) ->
    verify_opts w o (Ok (one_key (or_else [] (op_key_id o)) key))
| verify_no_alg : ~ unreadable w (op_public_key o) -> op_algorithm o = None -> verify_opts w o (Ok (fun _ => []))
| verify_io : unreadable w (op_public_key o) -> verify_opts w o (Err VIo)
| verify_unknown a : ~ unreadable w (op_public_key o) -> op_algorithm o = Some a -> ~ In a known_names ->
    verify_opts w o (Err (VBadArg ($"Unknown algorithm: " ++ a)))
| verify_unsupported a pem : key_file w (op_public_key o) pem -> op_algorithm o = Some a -> In a known_names -> (forall t, ~ loads a t) ->
    verify_opts w o (Err (VBadArg ($"Unknown key type: " ++ a)))
| verify_no_key a : op_public_key o = None -> op_algorithm o = Some a -> In a known_names -> verify_opts w o (Err (VBadArg $"No key provided"))
| verify_bad_key a t pem : op_algorithm o = Some a -> loads a t -> key_file w (op_public_key o) pem -> public_key w t pem None -> verify_opts w o (Err VKey).

(** ** canonicalize *)
Definition opt_params {A} (k : str) (f : A -> bare) (o : option A) : list (str * bare) :=
  match o with Some a => [(k, f a)] | None => [] end.
Inductive canon_opts (o : opt) : result canon_config verror -> Prop :=
| canon_ok a oc : op_algorithm o = Some a -> In a known_names -> given o oc ->
    canon_opts o (Ok (CanonConfig (op_label o) (or_else [] oc)
      (opt_params $"created" BInteger (op_created o) ++ opt_params $"expires" BInteger (op_expires o)
       ++ opt_params $"nonce" BToken (op_nonce o) ++ opt_params $"keyid" BString (op_key_id o) ++ [($"alg", BString a)])))
| canon_bad_headers : bad_headers o -> canon_opts o (Err VParse)
| canon_unknown a : ~ bad_headers o -> op_algorithm o = Some a -> ~ In a known_names -> canon_opts o (Err (VBadArg ($"Unknown algorithm: " ++ a)))
| canon_no_alg : ~ bad_headers o -> op_algorithm o = None -> canon_opts o (Err (VBadArg $"No algorithm provided")).

(** ** Signing and verifying with the validator *)
(** The request a run works on. *)
Definition run_input (w : world) (o : opt) (stdin input : str) : Prop :=
  match op_in_file o with Some f => w_read w f = Some input | None => input = stdin end.
Definition run_request (w : world) (o : opt) (stdin : str) (r : mock) : Prop :=
  exists input, run_input w o stdin input /\ frames input r /\ loggable (w_trace w) r /\ target_url (w_url w) (mr_path r) (mr_headers r) (mr_url r).
(** The two option sets name the same algorithm and a matching pair of keys. *)
Definition key_pair (w : world) (os ov : opt) (rnd : N) : Prop :=
  exists a t spem sk vpem pk, op_algorithm os = Some a /\ op_algorithm ov = Some a /\ loads a t
    /\ key_file w (op_private_key os) spem /\ sign_new_pkcs8_pem (w_crypto w) (w_ring w) t spem = Some sk
    /\ key_file w (op_public_key ov) vpem /\ public_key w t vpem (Some pk)
    /\ forall m, vf_verify pk m (sg_sign sk rnd m) = true.
(** The Digest header, if any, is right. *)
Definition honest_digest (r : mock) : Prop :=
  forall dv, mr_derive r (CHeader $"digest") = Done (Some dv) ->
  exists alg v, first_entry default_digest_provider dv alg v /\ option_map (dg_digest alg) (mr_body r) = Some v.
