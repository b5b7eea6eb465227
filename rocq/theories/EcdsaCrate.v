(** Requests signed with ECDSA keys. *)
From Verif Require Export EcdsaDer EcdsaLaw RsaCrate.
From Verif Require Import StrFacts AlgFacts KeyFacts ShaFacts RsaFacts RoundTrip MakeFacts.
Local Open Scope Z_scope.

Section Crate.
  Context (rp rq : str -> option (N * N)) (c : curve) (private : str -> option Z) (nonces : N -> list Z) (GC : good_curve c).
  Let CG : curve_group c := good_group c GC.
  Let cy := rsa_over rp rq (ecdsa_over c private nonces).
  Local Notation n := (cv_n c).
  Local Notation G := (Some (cv_gx c, cv_gy c)).

  Lemma ec_digest (msg : str) : digest_number msg = hash_number msg.
  Proof. unfold digest_number, hash_number. now rewrite be_value_spec. Qed.
  Lemma ec_p_pos : 0 < cv_p c.
  Proof. pose proof (cg_p3 c CG). lia. Qed.
  Lemma ec_n_256 : n < 2 ^ 256.
  Proof. apply CG. Qed.
  Lemma ec_verify (key msg tag : str) : cy_verify cy ECDSA_P256_SHA256 key msg tag = true <->
    exists Q r s, public_point c key Q /\ pair_in_der r s tag /\ valid_pair c Q (hash_number msg) r s.
  Proof.
    cbn [cy rsa_over cy_verify ecdsa_over]. rewrite ec_digest. split.
    - destruct (key_point c key) as [Q|] eqn:K; [|discriminate]. destruct (signature_numbers tag) as [[r s]|] eqn:S; [|discriminate].
      apply key_iff in K; [|exact ec_p_pos]. apply numbers_iff in S. intro H. exists Q, r, s. split; [exact K|]. split; [exact S|].
      apply check_iff; [exact CG| |exact H]. destruct K as (? & ? & ? & ? & _ & _ & _ & _ & _ & _ & O). exact O.
    - intros (Q & r & s & K & S & H). pose proof K as (? & ? & ? & ? & _ & _ & _ & _ & _ & _ & O).
      apply key_iff in K; [|exact ec_p_pos]. apply numbers_iff in S. rewrite K, S. now apply check_iff.
  Qed.
  Lemma ec_other_keys (key msg tag : str) : (forall Q, ~ public_point c key Q) -> cy_verify cy ECDSA_P256_SHA256 key msg tag = false.
  Proof. intro H. apply not_true_is_false. intro V. apply ec_verify in V. destruct V as (Q & r & s & K & _). now apply (H Q). Qed.
  Lemma key_unique (key : str) (Q Q' : point) : public_point c key Q -> public_point c key Q' -> Q = Q'.
  Proof. intros K K'. apply key_iff in K, K'; [|exact ec_p_pos|exact ec_p_pos]. congruence. Qed.
  Lemma valid_bound (Q : point) (z r s : Z) : valid_pair c Q z r s -> 0 < r < 2 ^ 256 /\ 0 < s < 2 ^ 256.
  Proof. intros (R & S & _). pose proof ec_n_256. lia. Qed.
  (** One text for a pair. *)
  Lemma ec_one_tag (Q : point) (z r s : Z) (tag tag' : str) : valid_pair c Q z r s -> pair_in_der r s tag -> pair_in_der r s tag' -> tag = tag'.
  Proof. intros V D D'. destruct (valid_bound Q z r s V) as [R S]. apply der_is in D, D'; try assumption. congruence. Qed.

  (** ** Signing *)
  Lemma ec_sign (sk : str) (d : Z) (rnd : N) (msg : str) (r s : Z) : private sk = Some d ->
    first_made c d (hash_number msg) (nonces rnd) r s -> pair_in_der r s (cy_sign cy ECDSA_P256_SHA256 sk rnd msg).
  Proof.
    intros P F. cbn [cy rsa_over cy_sign ecdsa_over]. rewrite P, ec_digest. rewrite (proj2 (sign_iff c CG d _ _ r s) F).
    destruct (first_made_is c d _ _ r s F) as (k & _ & R & S & _). pose proof ec_n_256. apply der_is; [lia|lia|reflexivity].
  Qed.
  Lemma draws_made (d : Z) (rnd : N) (msg : str) : enough_draws c d nonces -> exists r s, first_made c d (hash_number msg) (nonces rnd) r s.
  Proof.
    intro E. destruct (E rnd msg) as (k & r & s & I & M). destruct (sign_some c CG d _ _ k r s I M) as (r' & s' & H). exists r', s'. now apply sign_iff.
  Qed.
  (** Without one that works there is no signature. *)
  Lemma ec_no_sign (sk : str) (d : Z) (rnd : N) (msg : str) : private sk = Some d ->
    (forall r s, ~ first_made c d (hash_number msg) (nonces rnd) r s) -> cy_sign cy ECDSA_P256_SHA256 sk rnd msg = [].
  Proof.
    intros P F. cbn [cy rsa_over cy_sign ecdsa_over]. rewrite P, ec_digest. destruct (ecdsa_sign c d _ _) as [[r s]|] eqn:E; [|reflexivity].
    apply sign_iff in E; [|exact CG]. now elim (F r s).
  Qed.
  Lemma ec_round (sk pk : str) (d : Z) (Q : point) (rnd : N) (msg : str) : ec_keys c private sk pk d Q -> enough_draws c d nonces ->
    cy_verify cy ECDSA_P256_SHA256 pk msg (cy_sign cy ECDSA_P256_SHA256 sk rnd msg) = true.
  Proof.
    intros (P & D & K & M) E. destruct (draws_made d rnd msg E) as (r & s & F). apply ec_verify. exists Q, r, s. split; [exact K|].
    split; [now apply (ec_sign sk d)|]. destruct (first_made_is c d _ _ r s F) as (k & Mk). now apply (made_valid c CG d Q D M _ k).
  Qed.
  Lemma ec_signs (sk pk : str) (d : Z) (Q : point) (rnd : N) (msg : str) : ec_keys c private sk pk d Q -> enough_draws c d nonces ->
    exists r s, first_made c d (hash_number msg) (nonces rnd) r s /\ valid_pair c Q (hash_number msg) r s
      /\ forall tag, pair_in_der r s tag <-> tag = cy_sign cy ECDSA_P256_SHA256 sk rnd msg.
  Proof.
    intros (P & D & K & M) E. destruct (draws_made d rnd msg E) as (r & s & F). exists r, s. split; [exact F|].
    destruct (first_made_is c d _ _ r s F) as (k & Mk). pose proof (made_valid c CG d Q D M _ k r s Mk) as V. split; [exact V|].
    pose proof (ec_sign sk d rnd msg r s P F) as T. intro tag. split; [intro H; exact (ec_one_tag Q _ r s _ _ V H T)|now intros ->].
  Qed.
  Lemma ec_key_pair (sk pk : str) (d : Z) (Q : point) : ec_keys c private sk pk d Q -> enough_draws c d nonces -> key_pair cy ECDSA_P256_SHA256 sk pk.
  Proof. intros K E rnd msg. now apply (ec_round sk pk d Q). Qed.
  Lemma ec_texts (sk pk : str) (sg : http_signer) (vf : http_verifier) (d : Z) (Q : point) (rnd : N) :
    ec_keys c private sk pk d Q -> enough_draws c d nonces ->
    signs_with cy ECDSA_P256_SHA256 sk sg -> verifies_by cy ECDSA_P256_SHA256 pk vf -> matching sg rnd vf.
  Proof.
    intros K E S V m. cbv zeta. rewrite (S rnd m). rewrite b64_bits_encode.
    split; [apply b64_plain|]. split; [apply b64_clean|]. apply V. eexists. split; [symmetry; apply b64_bits_encode|]. now apply (ec_round sk pk d Q).
  Qed.
  Lemma ec_sign_verify (rk : ring_keys) (sk pk : str) (d : Z) (Q : point) (r r' : mock) (cf : signing_config) (env : sign_env)
      (vc : verifying_config) (venv : verify_env) (k : http_verifier) :
    ec_keys c private sk pk d Q -> enough_draws c d nonces ->
    ring_signs cy rk EcdsaP256Sha256 sk (sc_signature cf) -> ring_verifies cy EcdsaP256Sha256 pk k -> In k (vc_keys vc (sc_key_id cf)) ->
    sys_clock_ok (se_sys env) -> sign mr_client r cf env = Done (r', Ok tt) ->
    sc_label cf = $"sig" -> sc_nonce cf <> Some [] ->
    Forall component_rep (sc_components cf) -> (forall q, In q (sc_components cf) -> ~ signature_header q) ->
    mr_derive r (CHeader $"digest") = Done None -> sc_compute_digest cf = true ->
    sc_digest cf = sha256_digest \/ sc_digest cf = sha512_digest -> vc_digests vc = default_digest_provider ->
    sys_clock_ok (ve_sys venv) -> vc_validate_date vc = false ->
    (forall x, created_at cf (seconds (se_sys env)) = Some x -> (x <= seconds (ve_sys venv))%Z) ->
    (forall x, expires_at cf (seconds (se_sys env)) = Some x -> (seconds (ve_sys venv) <= x)%Z) ->
    (forall q, In q (vc_required vc) -> (exists h, q = CHeader h) /\ In q (sc_components cf) /\ has_value (mr_derive r') q) ->
    verify mr_server r' vc venv = Done (Ok (tt, sc_key_id cf)).
  Proof.
    intros K E S V I. intros. apply (mock_round r r' cf env vc venv k); try assumption.
    apply (ec_texts sk pk _ _ d Q); [exact K|exact E|exact (ring_signs_is cy rk EcdsaP256Sha256 sk _ S)|exact (ring_verifies_is cy EcdsaP256Sha256 pk _ V)].
  Qed.

  (** ** Other texts *)
  Lemma b64_inj (a b : str) : b64_bits a = b64_bits b -> a = b.
  Proof.
    intro E. assert (X : Some a = Some b); [|now injection X]. rewrite <- (proj2 (decode_bits (b64_bits a) a) eq_refl), E. now apply decode_bits.
  Qed.
  Lemma ec_other_text (pk : str) (vf : http_verifier) (d : Z) (Q : point) (msg text : str) :
    0 < d < n -> multiple c G (Z.to_nat d) Q -> public_point c pk Q -> verifies_by cy ECDSA_P256_SHA256 pk vf ->
    vf_verify vf msg text = true -> exists text', text' <> text /\ vf_verify vf msg text' = true.
  Proof.
    intros D M K V H. apply V in H. destruct H as (tag & -> & H). apply ec_verify in H. destruct H as (Q' & r & s & K' & S & Vp).
    rewrite (key_unique pk Q' Q K' K) in *. pose proof (valid_other c CG d Q D M _ r s Vp) as Vo.
    destruct (valid_bound Q _ _ _ Vo) as [R' S']. exists (b64_bits (signature_bytes r (n - s))). split.
    - intro E. apply b64_inj in E. subst tag. pose proof (proj2 (der_is r (n - s) _ R' S') eq_refl) as T.
      destruct (der_unique_pair _ _ _ _ _ T S) as [_ F]. now apply (other_differs c CG s (proj1 (proj2 Vp))).
    - apply V. eexists. split; [reflexivity|]. apply ec_verify. exists Q, r, (n - s). split; [exact K|]. split; [now apply der_is|exact Vo].
  Qed.
  (** The form of the draft. *)
  Lemma ec_not_draft (sk pk : str) (d : Z) (Q : point) (rnd : N) (msg : str) : ec_keys c private sk pk d Q -> enough_draws c d nonces ->
    (forall r s, first_made c d (hash_number msg) (nonces rnd) r s -> ~ pair_in_draft r s (cy_sign cy ECDSA_P256_SHA256 sk rnd msg))
    /\ (forall r s tag, pair_in_draft r s tag -> cy_verify cy ECDSA_P256_SHA256 pk msg tag = true ->
          exists r' s', (r', s') <> (r, s) /\ pair_in_der r' s' tag /\ valid_pair c Q (hash_number msg) r' s').
  Proof.
    intros (P & D & K & M) E. split.
    - intros r s F. apply der_not_draft. now apply (ec_sign sk d).
    - intros r s tag T V. apply ec_verify in V. destruct V as (Q' & r' & s' & K' & S & Vp). rewrite (key_unique pk Q' Q K' K) in *.
      exists r', s'. split; [|now split]. intro X. injection X as -> ->. exact (der_not_draft r s tag S T).
  Qed.
  (** Two messages. *)
  Lemma ec_twice (pk : str) (d : Z) (Q : point) (m1 m2 tag : str) : 0 < d < n -> multiple c G (Z.to_nat d) Q -> public_point c pk Q ->
    cy_verify cy ECDSA_P256_SHA256 pk m1 tag = true -> cy_verify cy ECDSA_P256_SHA256 pk m2 tag = true ->
    exists r s, pair_in_der r s tag /\ (same n (hash_number m1) (hash_number m2) \/ same n (hash_number m1 + hash_number m2 + 2 * r * d) 0 \/ r + n < cv_p c).
  Proof.
    intros D M K V V'. apply ec_verify in V, V'. destruct V as (Q1 & r & s & K1 & S & Vp), V' as (Q2 & r' & s' & K2 & S' & Vp').
    rewrite (key_unique pk Q1 Q K1 K), (key_unique pk Q2 Q K2 K) in *. destruct (der_unique_pair _ _ _ _ _ S S') as [<- <-].
    exists r, s. split; [exact S|]. exact (valid_twice c CG d Q D M _ _ r s Vp Vp').
  Qed.
  Lemma ec_key_exists (Q : point) : on_curve c Q -> Q <> None -> exists pk, public_point c pk Q.
  Proof.
    destruct Q as [[x y]|]; [|congruence]. intros O _. pose proof O as (X & Y & _). assert (P : cv_p c < 2 ^ 256) by apply CG.
    rewrite <- two_256_eq in P. exists (byte 4 :: be_bytes 32 (Z.to_N x) ++ be_bytes 32 (Z.to_N y)).
    exists (be_bytes 32 (Z.to_N x)), (be_bytes 32 (Z.to_N y)), x, y. split; [reflexivity|]. split; [apply be_bytes_length|]. split; [apply be_bytes_length|].
    rewrite !big_endian_of by (fold two_256; lia). split; [lia|]. split; [lia|]. now split.
  Qed.
  Lemma ec_two_messages (m1 m2 : str) (k x y : Z) : 0 < k < n -> multiple c G (Z.to_nat k) (Some (x, y)) -> ~ same n x 0 ->
    ~ same n (hash_number m1) (hash_number m2) -> ~ same n (hash_number m1 + hash_number m2) 0 ->
    exists d Q pk tag, 0 < d < n /\ multiple c G (Z.to_nat d) Q /\ public_point c pk Q
      /\ cy_verify cy ECDSA_P256_SHA256 pk m1 tag = true /\ cy_verify cy ECDSA_P256_SHA256 pk m2 tag = true.
  Proof.
    intros K M X N1 N2. destruct (both_valid c CG _ _ k x y K M X N1 N2) as (d & Q & r & s & D & MQ & V & V').
    destruct (ec_key_exists Q) as [pk P].
    { apply (multiple_in c CG _ _ _ (g_in c CG) MQ). }
    { intros ->. apply multiple_iff in MQ; [|exact CG|apply (g_in c CG)]. rewrite times_small in MQ by lia. symmetry in MQ.
      apply (zmul_none c CG d G (g_in c CG)) in MQ; [|discriminate]. now apply (range_divide c d). }
    destruct (valid_bound Q _ _ _ V) as [R S]. pose proof (proj2 (der_is r s _ R S) eq_refl) as T.
    exists d, Q, pk, (signature_bytes r s). split; [exact D|]. split; [exact MQ|]. split; [exact P|]. split; apply ec_verify; exists Q, r, s; auto.
  Qed.
  Lemma ec_tampering {R} (cr : client_request_like R) (L : client_laws cr) {S Rem} (sr : server_request_like S Rem) (SL : server_laws sr)
      (r r' : R) (cf : signing_config) (env : sign_env) (s : S) (vc : verifying_config) (venv : verify_env) (rem : Rem) (kid : str)
      (sk pk : str) (d : Z) (Q : point) :
    sys_clock_ok (se_sys env) -> sign cr r cf env = Done (r', Ok tt) ->
    Forall component_rep (sc_components cf) -> sc_nonce cf <> Some [] -> ~ In "="%char (sc_label cf) -> plain (sc_label cf) ->
    ec_keys c private sk pk d Q -> enough_draws c d nonces -> signs_with cy ECDSA_P256_SHA256 sk (sc_signature cf) ->
    (forall k, In k (vc_keys vc (sc_key_id cf)) -> verifies_by cy ECDSA_P256_SHA256 pk k) ->
    rl_derive (sr_rl sr) s (CHeader $"signature-input") = rl_derive (cr_rl cr) r' (CHeader $"signature-input") ->
    rl_derive (sr_rl sr) s (CHeader $"signature") = rl_derive (cr_rl cr) r' (CHeader $"signature") ->
    same_line_feeds (signed_view (cr_rl cr) r r') (rl_derive (sr_rl sr) s) (sc_components cf) ->
    verify sr s vc venv = Done (Ok (rem, kid)) ->
    (forall q v, In q (sc_components cf) -> signed_view (cr_rl cr) r r' q = Done (Some v) -> rl_derive (sr_rl sr) s q = Done (Some v))
    \/ exists m1 m2 a b, two_bases (signed_view (cr_rl cr) r r') (rl_derive (sr_rl sr) s) cf (seconds (se_sys env)) m1 m2
         /\ first_made c d (hash_number m1) (nonces (se_rnd env)) a b
         /\ (same n (hash_number m1) (hash_number m2) \/ same n (hash_number m1 + hash_number m2 + 2 * a * d) 0 \/ a + n < cv_p c).
  Proof.
    intros Ck H Rp Nn Ne Pl K E Sg Ks I1 I2 Lf V.
    destruct (tamper_values cr L r r' cf env Ck H Rp Nn sr SL s vc venv I1 I2 rem kid Ne Pl) as [Eq|(m1 & m2 & k & N & Kin & Kv)];
      try assumption.
    - intro m. rewrite (Sg (se_rnd env) m), b64_bits_encode. split; [apply b64_plain|apply b64_clean].
    - now left.
    - right. apply (Ks k Kin) in Kv. destruct Kv as (tag & Et & Kv). rewrite (Sg (se_rnd env) m1) in Et. apply b64_inj in Et. subst tag.
      pose proof (ec_round sk pk d Q (se_rnd env) m1 K E) as V1. pose proof K as (P & D & Kp & M).
      destruct (draws_made d (se_rnd env) m1 E) as (a & b & F). exists m1, m2, a, b. split; [exact N|]. split; [exact F|].
      destruct (ec_twice pk d Q m1 m2 _ D M Kp V1 Kv) as (a' & b' & T & C).
      destruct (der_unique_pair _ _ _ _ _ T (ec_sign sk d (se_rnd env) m1 a b P F)) as [-> ->]. exact C.
  Qed.
End Crate.
