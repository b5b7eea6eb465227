(** Requests that are signed alike.  Nothing here models code. *)
From Verif Require Export SpecFlow SpecAuto.

(** The components of the configuration have the same values, and so have the host and the
    digest of the body where they are needed for a header. *)
Definition signs_alike {R1 R2} (cr1 : client_request_like R1) (cr2 : client_request_like R2) (r1 : R1) (r2 : R2) (c : signing_config) : Prop :=
  (forall q, In q (sc_components c) -> rl_derive (cr_rl cr1) r1 q = rl_derive (cr_rl cr2) r2 q)
  /\ (In (CHeader $"host") (sc_components c) -> sc_add_host c = true -> rl_derive (cr_rl cr1) r1 (CHeader $"host") = Done None ->
      cr_host cr1 r1 = cr_host cr2 r2)
  /\ (In (CHeader $"digest") (sc_components c) -> sc_compute_digest c = true -> rl_derive (cr_rl cr1) r1 (CHeader $"digest") = Done None ->
      snd (cr_compute_digest cr1 r1 (sc_digest c)) = snd (cr_compute_digest cr2 r2 (sc_digest c))).

(** Configurations that differ at most in label, key, nonce and times. *)
Definition same_coverage (c c' : signing_config) : Prop :=
  sc_components c' = sc_components c /\ sc_skip_missing c' = sc_skip_missing c /\ sc_digest c' = sc_digest c
  /\ sc_compute_digest c' = sc_compute_digest c /\ sc_add_date c' = sc_add_date c /\ sc_add_host c' = sc_add_host c.
