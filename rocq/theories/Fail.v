(** Signing with a library that can fail: src/algorithm/openssl.rs and src/signing.rs with the
    [unwrap]s and [expect]s that [Algorithm.v] leaves out. *)
From Verif Require Export Signing.

(** ** src/algorithm/openssl.rs *)

(** The kinds of key that [PKey::private_key_from_pkcs8] reads, with the key material; for a
    plain RSA key the size of its modulus in bytes. *)
Inductive pkey := PRsa (size : N) (k : str) | PRsaPss (k : str) | PEc (k : str) | PEdwards (k : str).
Inductive md := MdSha256 | MdSha512.

(** The calls of the library: [Signer::new], [Verifier::new], [set_rsa_padding(PKCS1)] (whether they
    succeed), [sign_oneshot_to_vec], [verify_oneshot] ([None]: an error). *)
Record ossl := Ossl {
  os_signer : md -> pkey -> bool;
  os_verifier : md -> pkey -> bool;
  os_padding : pkey -> bool;
  os_sign : md -> pkey -> str -> option str;
  os_verify : md -> pkey -> str -> str -> option bool     (* key, tag, message *)
}.

(** Lines 115-118: the digest of each type (no ECDSA type). *)
Definition openssl_md (t : key_type) : option md :=
  match t with
  | RsaSha256 | RsaPssSha256 => Some MdSha256
  | RsaSha512 | RsaPssSha512 => Some MdSha512
  | EcdsaP256Sha256 => None
  end.

(** Lines 79-86 [http_sign]: two [unwrap]s and an [expect]. *)
Definition ossl_http_sign (o : ossl) (h : md) (k : pkey) (msg : str) : outcome str :=
  if os_signer o h k then
    if os_padding o k then
      match os_sign o h k msg with
      | Some tag => Done (b64_encode tag)
      | None => Panic
      end
    else Panic
  else Panic.

(** Lines 92-107 [http_verify]: the text is decoded first; an error of the check is printed and
    counts as false. *)
Definition ossl_http_verify (o : ossl) (h : md) (k : pkey) (msg sig : str) : outcome bool :=
  match b64_decode sig with
  | None => Done false
  | Some tag =>
      if os_verifier o h k then
        if os_padding o k then Done (match os_verify o h k tag msg with Some b => b | None => false end)
        else Panic
      else Panic
  end.

(** ** src/algorithm/ring.rs *)

(** Lines 85-96 and 192-198 [http_sign]: [sign] of ring with the random source of the system, and
    an [expect] ([None]: an error, which ring gives if the random source fails; for RSA keys see also RsaKey.v). *)
Definition ring_http_sign (lib : N -> str -> option str) (rnd : N) (msg : str) : outcome str :=
  match lib rnd msg with Some tag => Done (b64_encode tag) | None => Panic end.

(** ** src/signing.rs *)
Section SignF.
  Context {R : Type} (cr : client_request_like R).
  (** [http_sign] of the signer; the configuration gives its name. *)
  Variable f : N -> str -> outcome str.

  (** src/signing.rs:433-486 [sign], as in Signing.v, with a signer that may panic (line 476). *)
  Definition sign_f (r : R) (c : signing_config) (env : sign_env) : outcome (R * result unit error) :=
    do (r1, cs) <- add_auto_headers cr r c env;
    do ts <- unix_timestamp (se_sys env);
    match sign_canon c cs ts with
    | Err e => Done (r1, Err e)
    | Ok cc =>
        do res <- canonicalize (cr_rl cr) r1 cc;
        match res with
        | Err _ => Done (r1, Err ECanonicalize)
        | Ok (base, si) =>
            do si_text <- si_to_string si;
            match hvalue_parse si_text with
            | None => Done (r1, Err ESignatureInputError)
            | Some v =>
                let r2 := cr_set_header cr r1 h_signature_input v in
                do sig <- f (se_rnd env) base;
                match hvalue_parse (sig_header_text (sc_label c) sig) with
                | None => Done (r2, Err EConvertHeader)
                | Some w => Done (cr_set_header cr r2 h_signature w, Ok tt)
                end
            end
        end
    end.
End SignF.
