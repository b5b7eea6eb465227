(** What [sign] does, in terms of the request it is given.  Nothing here models code. *)
From Verif Require Export SpecSign SpecCalendar SpecSha.

Section Auto.
  Context {R : Type} (cr : client_request_like R) (r : R) (c : signing_config).
  (** The text of a Date header of that moment. *)
  Variable date : str.

  (** The value a header without one is given. *)
  Definition added (h : str) : option str :=
    if list_eq_dec ascii_dec h $"date" then if sc_add_date c then Some date else None
    else if list_eq_dec ascii_dec h $"host" then if sc_add_host c then cr_host cr r else None
    else if list_eq_dec ascii_dec h $"digest" then
      if sc_compute_digest c
      then match snd (cr_compute_digest cr r (sc_digest c)) with
           | Some d => Some (dg_name (sc_digest c) ++ $"=" ++ d)
           | None => None
           end
      else None
    else None.
  (** The values on which the signature is computed: those of the request, completed. *)
  Definition completed (q : component) : outcome (option str) :=
    match q, rl_derive (cr_rl cr) r q with
    | CHeader h, Done None => Done (added h)
    | _, v => v
    end.

  (** The text that is signed at the time [now], and the components it covers. *)
  Definition to_sign (now : Z) (cs : list component) (base : str) : Prop :=
    covered completed c cs /\ signature_base completed cs (stamp c now) base.

  (** The results of [sign]. *)
  Inductive sign_outcome (now : Z) (rnd : N) : result unit error -> Prop :=
  | out_created : created_late c now -> sign_outcome now rnd (Err EInvalidSignatureCreationDate)
  | out_expires : ~ created_late c now -> expires_early c now -> sign_outcome now rnd (Err EInvalidSignatureExpiresDate)
  | out_missing q : ~ created_late c now -> ~ expires_early c now ->
      sc_skip_missing c = false -> In q (sc_components c) -> completed q = Done None -> sign_outcome now rnd (Err ECanonicalize)
  | out_header cs base : ~ created_late c now -> ~ expires_early c now ->
      to_sign now cs base -> ~ legal_value (signature_text c rnd base) -> sign_outcome now rnd (Err EConvertHeader)
  | out_ok cs base : ~ created_late c now -> ~ expires_early c now ->
      to_sign now cs base -> legal_value (signature_text c rnd base) -> sign_outcome now rnd (Ok tt).
End Auto.

(** The digest a configuration uses, by its standard. *)
Inductive standard_digest : http_digest -> str -> str -> Prop :=
| std_256 b d : (8 * N.of_nat (List.length b) < 2 ^ 64)%N -> digest SHA_256 b d -> standard_digest sha256_digest b ($"SHA-256=" ++ b64_bits d)
| std_512 b d : (8 * N.of_nat (List.length b) < 2 ^ 128)%N -> digest SHA_512 b d -> standard_digest sha512_digest b ($"SHA-512=" ++ b64_bits d).
