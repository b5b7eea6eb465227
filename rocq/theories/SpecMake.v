(** Components made in code, and signatures between the two libraries.  Nothing here models
    code. *)
From Verif Require Export Spec SpecGrammar SpecHist SpecKey SpecLine SpecQuery.

(** ** Components *)
(** [DerivedComponent::new(n).with_param(k1, v1).with_param(k2, v2) ...]. *)
Definition made (n : str) (calls : list (str * str)) : derived :=
  fold_left (fun d kv => dc_with_param d (fst kv) (snd kv)) calls (dc_new n).
(** The text of a string, and of a parameter with a string. *)
Definition quoted (s : str) : str := [ch_quote] ++ List.concat (map escaped s) ++ [ch_quote].
Definition param_of (kv : str * str) : str := [";"%char] ++ fst kv ++ ["="%char] ++ quoted (snd kv).
(** What can be written: visible strings; keys of lower-case letters, digits and [_-*.] that
    start with a letter or a star. *)
Definition writable (n : str) (ps : list (str * str)) : Prop :=
  Forall visible n /\ Forall (fun kv => key_text (fst kv) (fst kv) /\ Forall visible (snd kv)) ps.

(** ** Keys *)
(** A pair of keys of a scheme (RSA keys are, see C91). *)
Definition key_pair (cy : crypto) (s : scheme) (private public : str) : Prop :=
  forall rnd msg, cy_verify cy s public msg (cy_sign cy s private rnd msg) = true.
(** The signatures of a message by one scheme are none of the other, either way. *)
Definition schemes_differ (cy : crypto) (s s' : scheme) (private public : str) (rnd : N) (msg : str) : Prop :=
  cy_verify cy s' public msg (cy_sign cy s private rnd msg) = false
  /\ cy_verify cy s public msg (cy_sign cy s' private rnd msg) = false.
(** The openssl constructors, for a type [t]: this file gives this signer (verifier) with
    this key. *)
Inductive openssl_signs (cy : crypto) (ok : openssl_keys) (t : key_type) (private : str) (sg : http_signer) : Prop :=
| os_pkcs8 b : ok_pkcs8 ok b = Some private -> openssl_new_pkcs8 cy ok t b = Some sg -> openssl_signs cy ok t private sg
| os_pkcs8_pem b : ok_pkcs8 ok b = Some private -> openssl_new_pkcs8_pem cy ok t b = Some sg -> openssl_signs cy ok t private sg
| os_der b : ok_private_der ok b = Some private -> openssl_new_pkcs1_der cy ok t b = Some sg -> openssl_signs cy ok t private sg
| os_pem b : ok_private_pem ok b = Some private -> openssl_new_pkcs1_pem cy ok t b = Some sg -> openssl_signs cy ok t private sg.
Inductive openssl_verifies (cy : crypto) (ok : openssl_keys) (t : key_type) (public : str) (vf : http_verifier) : Prop :=
| ov_der b : ok_public_der ok b = Some public -> openssl_new_der cy ok t b = Some vf -> openssl_verifies cy ok t public vf
| ov_pem b : ok_public_pem ok b = Some public -> openssl_new_pem cy ok t b = Some vf -> openssl_verifies cy ok t public vf.
Inductive ring_signs (cy : crypto) (rk : ring_keys) (t : key_type) (private : str) (sg : http_signer) : Prop :=
| rs_pkcs8 b : rk_pkcs8 rk t b = Some private -> sign_new_pkcs8 cy rk t b = Some sg -> ring_signs cy rk t private sg
| rs_pkcs8_pem text label b : pem_file text label b -> rk_pkcs8 rk t b = Some private -> sign_new_pkcs8_pem cy rk t text = Some sg -> ring_signs cy rk t private sg
| rs_der b : rk_rsa_der rk b = Some private -> sign_new_pkcs1 cy rk t b = Some sg -> ring_signs cy rk t private sg
| rs_pem text label b : pem_file text label b -> rk_rsa_der rk b = Some private -> sign_new_pkcs1_pem cy rk t text = Some sg -> ring_signs cy rk t private sg.
Inductive ring_verifies (cy : crypto) (t : key_type) (public : str) (vf : http_verifier) : Prop :=
| rv_spki_der b oid : spki oid public b -> verify_new_spki_der cy t b = Some vf -> ring_verifies cy t public vf
| rv_spki_pem text label b oid : pem_file text label b -> spki oid public b -> verify_new_spki_pem cy t text = Some vf -> ring_verifies cy t public vf
| rv_der : verify_new_pkcs1_der cy t public = Some vf -> ring_verifies cy t public vf
| rv_pem text label : pem_file text label public -> verify_new_pkcs1_pem cy t text = Some vf -> ring_verifies cy t public vf.

(** What openssl signs with for a type: PKCS#1 for the PSS types too (C51). *)
Definition openssl_uses (t : key_type) : scheme :=
  match t with RsaSha256 | RsaPssSha256 => PKCS1_SHA256 | _ => PKCS1_SHA512 end.
(** The result of a constructor, given what the library read from the file: nothing, or a
    signer (verifier) with the key read, under the name of the type. *)
Definition openssl_signer_from (cy : crypto) (t : key_type) (read : option str) (o : option http_signer) : Prop :=
  match read with
  | None => o = None
  | Some key => exists sg, o = Some sg /\ signs_with cy (openssl_uses t) key sg /\ denotes (sg_name sg) (promised t)
  end.
Definition openssl_verifier_from (cy : crypto) (t : key_type) (read : option str) (o : option http_verifier) : Prop :=
  match read with
  | None => o = None
  | Some key => exists vf, o = Some vf /\ verifies_by cy (openssl_uses t) key vf /\ denotes (vf_name vf) (promised t)
  end.

(** The derived components of the draft (sections 2.2.1 to 2.2.11), and the header fields
    of the digests and signatures. *)
Definition draft_components : list str :=
  [$"@signature-params"; $"@method"; $"@target-uri"; $"@authority"; $"@scheme"; $"@request-target"; $"@path"; $"@query";
   $"@query-params"; $"@status"; $"@request-response"].
Definition draft_fields : list str := [$"content-digest"; $"digest"; $"signature"; $"signature-input"].
