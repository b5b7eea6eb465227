(** Requests signed with RSA keys from files. *)
From Verif Require Export RsaKeyFacts.
From Verif Require Import StrFacts SpecFacts AlgFacts KeyFacts RoundTrip MakeFacts ShaFacts ShaStd RsaFacts RsaPss FailFacts.
Local Open Scope N_scope.

Lemma exponents_of (n e p q dp dq qinv : N) : rsa_exponents e p q dp dq -> let k := key_of n e p q dp dq qinv in
  rsa_exponents (rp_e k) (rp_p k) (rp_q k) (rp_dp k) (rp_dq k).
Proof. intros [A B]. unfold key_of. destruct (q <? p); now split. Qed.
Lemma key_of_public (n e p q dp dq qinv : N) : rp_n (key_of n e p q dp dq qinv) = n /\ rp_e (key_of n e p q dp dq qinv) = e.
Proof. unfold key_of. destruct (q <? p); now split. Qed.
Lemma private_nonzero (n e d p q dp dq qinv : N) : ring_private n e d p q dp dq qinv -> n <> 0.
Proof. intros [O _]. now apply odd_nonzero. Qed.
Lemma rsa_scheme_of (t : key_type) : t <> EcdsaP256Sha256 -> rsa_scheme (scheme_of t).
Proof. intros T H. destruct t; try discriminate H. now apply T. Qed.

(** A private key as read. *)
Section Key.
  Context (key : str) (n e d p q dp dq qinv : N) (S : short_file key)
    (F : rsa_private_key n e d p q dp dq qinv key) (P : ring_private n e d p q dp dq qinv).
  Let k := key_of n e p q dp dq qinv.
  Lemma key_read : ring_rsa_private key = Some k.
  Proof. apply private_iff. split; [exact S|]. exists n, e, d, p, q, dp, dq, qinv. auto. Qed.
  Lemma key_takes : ring_takes n e.
  Proof. pose proof (read_sound _ _ _ _ _ _ _ _ P) as (_ & _ & _ & _ & _ & T & _). destruct (key_of_public n e p q dp dq qinv) as [E E']. now rewrite E, E' in T. Qed.
  Lemma key_signature (h : hashing) (rnd : N) (msg tag : str) :
    (ring_rsa_sign (pkcs1_with h) key rnd msg = Some tag -> pkcs1_signature h n e msg tag)
    /\ (ring_rsa_sign (pss_with h) key rnd msg = Some tag ->
        exists salt, List.length salt = digest_size h /\ big_endian salt = rnd mod 256 ^ N.of_nat (digest_size h) /\ pss_signature h n e msg salt tag).
  Proof.
    destruct (key_of_public n e p q dp dq qinv) as [E E']. assert (Z : rp_n k <> 0) by (unfold k; rewrite E; exact (private_nonzero _ _ _ _ _ _ _ _ P)). split.
    - intro H. pose proof (signed_pkcs1 h key k rnd msg tag key_read Z H) as X. unfold k in X. now rewrite E, E' in X.
    - intro H. pose proof (signed_pss h key k rnd msg tag key_read Z H) as X. unfold k in X. rewrite E, E' in X.
      eexists. split; [apply be_bytes_length|]. split; [|exact X].
      change (value (be_bytes (digest_size h) rnd) = rnd mod 256 ^ N.of_nat (digest_size h)). apply value_be_bytes.
  Qed.
  Lemma key_signs (s : scheme) (rnd : N) (msg : str) : rsa_scheme s -> rsa_exponents e p q dp dq -> ring_rsa_sign s key rnd msg <> None.
  Proof. intros R X. apply (sign_works s key k rnd msg R key_read (read_sound _ _ _ _ _ _ _ _ P)). now apply exponents_of. Qed.
  (** Verifying with the public key. *)
  Lemma key_verifies (ecdsa : crypto) (s : scheme) (public : str) (rnd : N) (msg tag : str) : rsa_scheme s -> rsa_public_numbers public n e ->
    ring_rsa_sign s key rnd msg = Some tag -> cy_verify (ring_rsa_over ecdsa) s public msg tag = true.
  Proof.
    intros R Pk H. cbn [ring_rsa_over cy_verify]. assert (K : ring_rsa_public public = Some (n, e)) by (apply ring_public_iff; split; [exact Pk|exact key_takes]).
    pose proof (private_nonzero _ _ _ _ _ _ _ _ P) as Z. destruct (scheme_cases s R) as [h [-> | ->]].
    - apply (proj1 (rsa_verify_iff _ _ ecdsa public n e msg tag K Z h)). now apply (key_signature h rnd).
    - apply (proj2 (rsa_verify_iff _ _ ecdsa public n e msg tag K Z h)). apply (key_signature h rnd) in H. destruct H as (salt & _ & _ & H). now exists salt.
  Qed.
  Lemma key_text (ecdsa : crypto) (t : key_type) (public : str) (vf : http_verifier) (rnd : N) (msg text : str) : t <> EcdsaP256Sha256 ->
    ring_http_sign (ring_rsa_sign (scheme_of t) key) rnd msg = Done text ->
    rsa_public_numbers public n e -> ring_verifies (ring_rsa_over ecdsa) t public vf -> vf_verify vf msg text = true.
  Proof.
    intros T H Pk V. unfold ring_http_sign in H. destruct (ring_rsa_sign (scheme_of t) key rnd msg) as [tag|] eqn:E; [|discriminate]. injection H as <-.
    apply (ring_verifies_is _ t public vf V). exists tag. split; [now rewrite b64_bits_encode|].
    apply (key_verifies ecdsa (scheme_of t) public rnd); [now apply rsa_scheme_of|exact Pk|exact E].
  Qed.
  Lemma key_total (t : key_type) (rnd : N) (msg : str) : t <> EcdsaP256Sha256 -> rsa_exponents e p q dp dq ->
    exists text, ring_http_sign (ring_rsa_sign (scheme_of t) key) rnd msg = Done text.
  Proof.
    intros T X. pose proof (key_signs (scheme_of t) rnd msg (rsa_scheme_of t T) X) as H. unfold ring_http_sign.
    destruct (ring_rsa_sign (scheme_of t) key rnd msg) as [tag|]; [eauto|contradiction].
  Qed.
  (** The same as with the modulus and the private exponent. *)
  Lemma key_same (s : scheme) (public : str -> option (N * N)) (ecdsa : crypto) (rnd : N) (msg : str) : rsa_scheme s -> rsa_numbers n e d -> rsa_exponents e p q dp dq ->
    ring_rsa_sign s key rnd msg = Some (cy_sign (rsa_over (fun _ => Some (n, d)) public ecdsa) s key rnd msg).
  Proof.
    intros R K X. destruct (ring_rsa_sign s key rnd msg) as [tag|] eqn:E; [|now elim (key_signs s rnd msg R X)]. f_equal.
    pose proof key_takes as T. pose proof (read_sound _ _ _ _ _ _ _ _ P) as (_ & _ & _ & _ & _ & _ & Big). rewrite (proj1 (key_of_public n e p q dp dq qinv)) in Big.
    destruct (scheme_cases s R) as [h [-> | ->]].
    - apply (pkcs1_unique h n e d msg); [exact K|now apply (key_signature h rnd)|].
      assert (Rm : room (pkcs1_with h) n).
      { assert (Y : 256 ^ 93 <= n) by (apply (N.le_trans _ (256 ^ 255)); [apply N.pow_le_mono_r; [discriminate|]; now vm_compute|apply T]).
        destruct h; [|exact Y]. apply (N.le_trans _ (256 ^ 93)); [apply N.pow_le_mono_r; [discriminate|]; now vm_compute|exact Y]. }
      destruct (pkcs1_room h n Rm) as (j & B & L). replace (cy_sign _ _ _ _ _) with (pkcs1_sign (hf_of h) n d msg) by now destruct h.
      exact (pkcs1_sign_opens h n e d msg j K B L).
    - apply (pss_unique h n e d msg (be_bytes (digest_size h) rnd)); [exact K| |].
      + destruct (key_of_public n e p q dp dq qinv) as [E1 E2]. assert (Z : rp_n k <> 0) by (unfold k; rewrite E1; exact (private_nonzero _ _ _ _ _ _ _ _ P)).
        pose proof (signed_pss h key k rnd msg tag key_read Z E) as Y. unfold k in Y. now rewrite E1, E2 in Y.
      + assert (Rm : room (pss_with h) n). { destruct h; [|exact Big]. apply (N.le_trans _ (2 ^ 1033)); [apply N.pow_le_mono_r; [discriminate|]; now vm_compute|exact Big]. }
        destruct (pss_room h n Rm) as (b & B & L). replace (cy_sign _ _ _ _ _) with (pss_sign (hf_of h) n d rnd msg) by now destruct h.
        exact (pss_sign_opens h n e d rnd msg b K B L).
  Qed.
End Key.

Section Crate.
  Context (ecdsa : crypto) (ec : str -> option str).
  Let cy := ring_rsa_over ecdsa.
  Let rk := RingKeys ring_rsa_pkcs8 ring_rsa_der ec.
  Definition good_private (key : str) : Prop :=
    exists n e d p q dp dq qinv, rsa_private_key n e d p q dp dq qinv key /\ ring_private n e d p q dp dq qinv.
  Lemma der_iff (b key : str) : ring_rsa_der b = Some key <-> key = b /\ short_file b /\ good_private b.
  Proof.
    unfold ring_rsa_der, good_private. split.
    - destruct (ring_rsa_private b) as [k|] eqn:K; [|discriminate]. intro H. injection H as <-. apply private_iff in K.
      destruct K as (S & n & e & d & p & q & dp & dq & qinv & F & P & _). split; [reflexivity|]. split; [exact S|]. do 8 eexists. eauto.
    - intros (-> & S & n & e & d & p & q & dp & dq & qinv & F & P). now rewrite (key_read b n e d p q dp dq qinv S F P).
  Qed.
  Lemma pkcs8_iff (b key : str) : ring_rsa_pkcs8 b = Some key <-> short_file b /\ rsa_pkcs8 key b /\ good_private key.
  Proof.
    unfold ring_rsa_pkcs8. rewrite rsa_wrapped. split.
    - destruct (unwrap_key rsa_algorithm b) as [key'|] eqn:U; [|discriminate]. cbn [andThen]. intro H. apply der_iff in H. destruct H as (-> & S & G).
      apply unwrap_iff in U. destruct U as [U F]. auto.
    - intros (F & U & G). rewrite (proj2 (unwrap_iff _ _ b) (conj U F)). cbn [andThen]. apply der_iff. split; [reflexivity|].
      split; [exact (wrapped_shorter _ _ _ U F)|exact G].
  Qed.
  Lemma rsa_made_iff (t : key_type) (b : str) : t <> EcdsaP256Sha256 ->
    (forall sg, sign_new_pkcs1 cy rk t b = Some sg <-> sg = ring_signer cy t b /\ short_file b /\ good_private b)
    /\ (forall sg, sign_new_pkcs8 cy rk t b = Some sg <-> exists key, sg = ring_signer cy t key /\ short_file b /\ rsa_pkcs8 key b /\ good_private key).
  Proof.
    intro T. assert (E : rk_pkcs8 rk t = ring_rsa_pkcs8) by (destruct t; try reflexivity; now elim T).
    unfold sign_new_pkcs1, sign_new_pkcs8. rewrite E. cbn [rk rk_rsa_der]. split; intro sg; split.
    - destruct (ring_rsa_der b) as [key|] eqn:D; [|discriminate]. intro H. injection H as <-. apply der_iff in D. destruct D as [-> D]. now split.
    - intros [-> D]. now rewrite (proj2 (der_iff b b) (conj eq_refl D)).
    - destruct (ring_rsa_pkcs8 b) as [key|] eqn:D; [|discriminate]. intro H. injection H as <-. apply pkcs8_iff in D. eauto.
    - intros (key & -> & D). now rewrite (proj2 (pkcs8_iff b key) D).
  Qed.
  Lemma rsa_reads (t : key_type) (b : str) : t <> EcdsaP256Sha256 ->
    (sign_new_pkcs1 cy rk t b <> None <-> short_file b /\ exists n e d p q dp dq qinv, rsa_private_key n e d p q dp dq qinv b /\ ring_private n e d p q dp dq qinv)
    /\ (sign_new_pkcs8 cy rk t b <> None <-> short_file b /\ exists key n e d p q dp dq qinv,
          rsa_pkcs8 key b /\ rsa_private_key n e d p q dp dq qinv key /\ ring_private n e d p q dp dq qinv)
    /\ (forall sg, sign_new_pkcs1 cy rk t b = Some sg -> signs_with cy (scheme_of t) b sg)
    /\ (forall sg, sign_new_pkcs8 cy rk t b = Some sg -> exists key, rsa_pkcs8 key b /\ signs_with cy (scheme_of t) key sg
          /\ sign_new_pkcs1 cy rk t key = Some sg).
  Proof.
    intro T. pose proof (fun b => rsa_made_iff t b T) as M. destruct (M b) as [M1 M8]. split; [|split; [|split]].
    - split.
      + intro H. destruct (sign_new_pkcs1 cy rk t b) as [sg|]; [|contradiction]. destruct (proj1 (M1 sg) eq_refl) as (_ & S & G). now split.
      + intros [S G]. rewrite (proj2 (M1 _) (conj eq_refl (conj S G))). discriminate.
    - split.
      + intro H. destruct (sign_new_pkcs8 cy rk t b) as [sg|]; [|contradiction]. destruct (proj1 (M8 sg) eq_refl) as (key & _ & S & W & n & e & d & p & q & dp & dq & qinv & G).
        split; [exact S|]. exists key, n, e, d, p, q, dp, dq, qinv. auto.
      + intros (S & key & n & e & d & p & q & dp & dq & qinv & W & G). rewrite (proj2 (M8 (ring_signer cy t key))); [discriminate|].
        exists key. split; [reflexivity|]. split; [exact S|]. split; [exact W|]. exists n, e, d, p, q, dp, dq, qinv. exact G.
    - intros sg H. apply M1 in H. destruct H as [-> _]. apply ring_sign_is.
    - intros sg H. apply M8 in H. destruct H as (key & -> & S & W & G). exists key. split; [exact W|]. split; [apply ring_sign_is|].
      apply (proj1 (M key)). split; [reflexivity|]. split; [|exact G]. apply rsa_wrapped in W. exact (wrapped_shorter _ _ _ W S).
  Qed.
  (** Other labels. *)
  Lemma other_algorithm (t : key_type) (algorithm key b text label : str) : t <> EcdsaP256Sha256 -> wrapped_key algorithm key b -> algorithm <> rsa_algorithm ->
    pem_file text label b -> sign_new_pkcs8 cy rk t b = None /\ sign_new_pkcs8_pem cy rk t text = None.
  Proof.
    intros T W A F. rewrite (proj1 (load_private cy rk t text label b F)). assert (X : sign_new_pkcs8 cy rk t b = None); [|now split].
    destruct (sign_new_pkcs8 cy rk t b) as [sg|] eqn:M; [|reflexivity]. exfalso. apply (rsa_made_iff t b T) in M. destruct M as (key' & _ & _ & W' & _).
    apply rsa_wrapped in W'. destruct W as (v & al & k & at' & V & Al & _ & _ & D), W' as (v' & al' & k' & at'' & V' & Al' & _ & _ & D').
    destruct (tagged_prefix 48 _ _ _ _ [] [] ltac:(lia) D D' eq_refl) as [I _].
    destruct (tagged_prefix 2 _ _ _ _ _ _ ltac:(lia) V V' I) as [_ I']. destruct (tagged_prefix 48 _ _ _ _ _ _ ltac:(lia) Al Al' I') as [E _]. congruence.
  Qed.
  (** Signers from files and verifiers of their public key. *)
  Lemma rsa_file_matching (t : key_type) (key public : str) (sg : http_signer) (vf : http_verifier) (rnd n e d p q dp dq qinv : N) : t <> EcdsaP256Sha256 ->
    ring_signs cy rk t key sg -> rsa_private_key n e d p q dp dq qinv key -> rsa_exponents e p q dp dq ->
    rsa_public_numbers public n e -> ring_verifies cy t public vf -> matching sg rnd vf.
  Proof.
    intros T S F X Pk V.
    assert (G : short_file key /\ ring_private n e d p q dp dq qinv).
    { assert (G : short_file key /\ good_private key).
      { assert (E : rk_pkcs8 rk t = ring_rsa_pkcs8) by (destruct t; try reflexivity; now elim T).
        destruct S as [b R _|text label b _ R _|b R _|text label b _ R _]; try (rewrite E in R); try (change (ring_rsa_der b = Some key) in R).
        1,2: apply pkcs8_iff in R; destruct R as (S & W & G); split; [apply rsa_wrapped in W; exact (wrapped_shorter _ _ _ W S)|exact G].
        1,2: apply der_iff in R; destruct R as (-> & S & G); now split. }
      destruct G as [Sh (n' & e' & d' & p' & q' & dp' & dq' & qinv' & F' & P)]. split; [exact Sh|].
      pose proof (numbers_unique key _ _ _ _ _ _ _ _ _ _ _ _ _ _ _ _ Sh F F') as E. injection E as -> -> -> -> -> -> -> ->. exact P. }
    destruct G as [Sh P]. intro m. cbv zeta. rewrite (ring_signs_is cy rk t key sg S rnd m). rewrite b64_bits_encode.
    split; [apply b64_plain|]. split; [apply b64_clean|]. apply (ring_verifies_is cy t public vf V). eexists. split; [symmetry; apply b64_bits_encode|].
    pose proof (rsa_scheme_of t T) as R. pose proof (key_signs key n e d p q dp dq qinv Sh F P (scheme_of t) rnd m R X) as H.
    replace (cy_sign cy (scheme_of t) key rnd m) with (match ring_rsa_sign (scheme_of t) key rnd m with Some tag => tag | None => [] end)
      by (destruct t; try reflexivity; now elim T).
    destruct (ring_rsa_sign (scheme_of t) key rnd m) as [tag|] eqn:E; [|contradiction].
    exact (key_verifies key n e d p q dp dq qinv Sh F P ecdsa (scheme_of t) public rnd m tag R Pk E).
  Qed.
  Lemma rsa_file_verify (t : key_type) (key public : str) (n e d p q dp dq qinv : N) (r r' : mock) (c : signing_config) (env : sign_env)
      (vc : verifying_config) (venv : verify_env) (k : http_verifier) : t <> EcdsaP256Sha256 ->
    ring_signs cy rk t key (sc_signature c) -> rsa_private_key n e d p q dp dq qinv key -> rsa_exponents e p q dp dq ->
    rsa_public_numbers public n e -> ring_verifies cy t public k -> In k (vc_keys vc (sc_key_id c)) ->
    sys_clock_ok (se_sys env) -> sign mr_client r c env = Done (r', Ok tt) ->
    sc_label c = $"sig" -> sc_nonce c <> Some [] ->
    Forall component_rep (sc_components c) -> (forall q, In q (sc_components c) -> ~ signature_header q) ->
    mr_derive r (CHeader $"digest") = Done None -> sc_compute_digest c = true ->
    sc_digest c = sha256_digest \/ sc_digest c = sha512_digest -> vc_digests vc = default_digest_provider ->
    sys_clock_ok (ve_sys venv) -> vc_validate_date vc = false ->
    (forall x, created_at c (seconds (se_sys env)) = Some x -> (x <= seconds (ve_sys venv))%Z) ->
    (forall x, expires_at c (seconds (se_sys env)) = Some x -> (seconds (ve_sys venv) <= x)%Z) ->
    (forall q, In q (vc_required vc) -> (exists h, q = CHeader h) /\ In q (sc_components c) /\ has_value (mr_derive r') q) ->
    verify mr_server r' vc venv = Done (Ok (tt, sc_key_id c)).
  Proof.
    intros T S F X Pk V I. intros. apply (mock_round r r' c env vc venv k); try assumption.
    exact (rsa_file_matching t key public _ _ _ n e d p q dp dq qinv T S F X Pk V).
  Qed.
  (** The signers made, and whole requests with them. *)
  Lemma signs_signer (t : key_type) (key : str) (sg : http_signer) : t <> EcdsaP256Sha256 -> ring_signs cy rk t key sg ->
    sg = ring_signer cy t key /\ short_file key /\ good_private key.
  Proof.
    intros T S. assert (E : rk_pkcs8 rk t = ring_rsa_pkcs8) by (destruct t; try reflexivity; now elim T).
    assert (A : forall b, rk_pkcs8 rk t b = Some key -> sign_new_pkcs8 cy rk t b = Some sg -> sg = ring_signer cy t key /\ short_file key /\ good_private key).
    { intros b R M. unfold sign_new_pkcs8 in M. rewrite R in M. injection M as <-. split; [reflexivity|]. rewrite E in R. apply pkcs8_iff in R.
      destruct R as (Sh & W & G). split; [apply rsa_wrapped in W; exact (wrapped_shorter _ _ _ W Sh)|exact G]. }
    assert (B : forall b, rk_rsa_der rk b = Some key -> sign_new_pkcs1 cy rk t b = Some sg -> sg = ring_signer cy t key /\ short_file key /\ good_private key).
    { intros b R M. assert (M' : Some (ring_signer cy t key) = Some sg) by (rewrite <- M; unfold sign_new_pkcs1; rewrite R; destruct t; try reflexivity; now elim T).
      injection M' as <-. split; [reflexivity|]. change (ring_rsa_der b = Some key) in R. apply der_iff in R. destruct R as (-> & D). exact D. }
    destruct S as [b R M|text label b F R M|b R M|text label b F R M].
    - exact (A b R M).
    - rewrite (proj1 (load_private cy rk t text label b F)) in M. exact (A b R M).
    - exact (B b R M).
    - rewrite (proj2 (load_private cy rk t text label b F)) in M. exact (B b R M).
  Qed.
  Lemma rsa_request {R} (cr : client_request_like R) (t : key_type) (key : str) (n e d p q dp dq qinv : N) (r : R) (c : signing_config) (env : sign_env) : t <> EcdsaP256Sha256 ->
    ring_signs cy rk t key (sc_signature c) -> rsa_private_key n e d p q dp dq qinv key -> rsa_exponents e p q dp dq ->
    sign_f cr (ring_http_sign (ring_rsa_sign (scheme_of t) key)) r c env = sign cr r c env.
  Proof.
    intros T S F X. destruct (signs_signer t key _ T S) as (E & Sh & n' & e' & d' & p' & q' & dp' & dq' & qinv' & F' & P).
    pose proof (numbers_unique key _ _ _ _ _ _ _ _ _ _ _ _ _ _ _ _ Sh F F') as Q. injection Q as -> -> -> -> -> -> -> ->.
    apply (never_fails cr cy t key); [exact E|]. intro m.
    pose proof (key_signs key n' e' d' p' q' dp' dq' qinv' Sh F P (scheme_of t) (se_rnd env) m (rsa_scheme_of t T) X) as H.
    replace (cy_sign cy (ring_sign_scheme t) key (se_rnd env) m) with (match ring_rsa_sign (scheme_of t) key (se_rnd env) m with Some tag => tag | None => [] end)
      by (destruct t; try reflexivity; now elim T).
    destruct (ring_rsa_sign (scheme_of t) key (se_rnd env) m); [reflexivity|contradiction].
  Qed.
  (** The files that other programs write. *)
  Lemma rsa_standard_file (t : key_type) (key b : str) (n e d p q dp dq qinv : N) : t <> EcdsaP256Sha256 ->
    standard_key n e d p q dp dq qinv -> ring_sizes n e d p q -> rsa_private_key n e d p q dp dq qinv key -> rsa_pkcs8 key b -> short_file b ->
    exists sg, sign_new_pkcs8 cy rk t b = Some sg /\ sign_new_pkcs1 cy rk t key = Some sg
      /\ (forall text label, pem_file text label b -> sign_new_pkcs8_pem cy rk t text = Some sg)
      /\ (forall text label, pem_file text label key -> sign_new_pkcs1_pem cy rk t text = Some sg)
      /\ forall rnd msg, exists tag, ring_rsa_sign (scheme_of t) key rnd msg = Some tag /\ sg_sign sg rnd msg = b64_bits tag.
  Proof.
    intros T St Si F W Sh. destruct (standard_read _ _ _ _ _ _ _ _ St Si) as [P X].
    assert (Sk : short_file key) by (apply rsa_wrapped in W; exact (wrapped_shorter _ _ _ W Sh)).
    assert (G : good_private key) by (exists n, e, d, p, q, dp, dq, qinv; now split).
    assert (M8 : sign_new_pkcs8 cy rk t b = Some (ring_signer cy t key)) by (apply (rsa_made_iff t b T); eauto).
    assert (M1 : sign_new_pkcs1 cy rk t key = Some (ring_signer cy t key)) by (apply (rsa_made_iff t key T); eauto).
    exists (ring_signer cy t key). split; [exact M8|]. split; [exact M1|]. split; [|split].
    - intros text label H. now rewrite (proj1 (load_private cy rk t text label b H)).
    - intros text label H. now rewrite (proj2 (load_private cy rk t text label key H)).
    - intros rnd msg. pose proof (key_signs key n e d p q dp dq qinv Sk F P (scheme_of t) rnd msg (rsa_scheme_of t T) X) as H.
      destruct (ring_rsa_sign (scheme_of t) key rnd msg) as [tag|] eqn:Y; [|contradiction]. exists tag. split; [reflexivity|].
      rewrite (ring_sign_is cy t key). f_equal.
      replace (cy_sign cy (scheme_of t) key rnd msg) with (match ring_rsa_sign (scheme_of t) key rnd msg with Some tag => tag | None => [] end)
        by (destruct t; try reflexivity; now elim T). now rewrite Y.
  Qed.
End Crate.
