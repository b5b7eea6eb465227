(** Requests signed with RSA keys. *)
From Verif Require Export RsaMore SpecMake SpecSign.
From Verif Require Import StrFacts SpecFacts AlgFacts KeyFacts ShaFacts ShaStd RsaNum RoundTrip MakeFacts.
Local Open Scope N_scope.

Section Crate.
  Context (private public : str -> option (N * N)) (ecdsa : crypto).
  Let cy := rsa_over private public ecdsa.

  Lemma rsa_key_pair (s : scheme) (sk pk : str) (n e d : N) : rsa_keys private public s sk pk n e d -> key_pair cy s sk pk.
  Proof. intros K rnd msg. now apply (rsa_round private public ecdsa s sk pk n e d). Qed.
  (** Any signer and verifier of the crate. *)
  Lemma rsa_texts (s : scheme) (sk pk : str) (sg : http_signer) (vf : http_verifier) (n e d rnd : N) :
    rsa_keys private public s sk pk n e d -> signs_with cy s sk sg -> verifies_by cy s pk vf -> matching sg rnd vf.
  Proof.
    intros K S V m. cbv zeta. rewrite (S rnd m). rewrite b64_bits_encode.
    split; [apply b64_plain|]. split; [apply b64_clean|]. apply V. eexists. split; [symmetry; apply b64_bits_encode|]. now apply (rsa_round private public ecdsa s sk pk n e d).
  Qed.
  Lemma rsa_signs (h : hashing) (sk pk : str) (n e d rnd : N) (msg : str) :
    (rsa_keys private public (pkcs1_with h) sk pk n e d -> pkcs1_signature h n e msg (cy_sign cy (pkcs1_with h) sk rnd msg))
    /\ (rsa_keys private public (pss_with h) sk pk n e d ->
        exists salt, List.length salt = digest_size h /\ big_endian salt = rnd mod 256 ^ N.of_nat (digest_size h)
          /\ pss_signature h n e msg salt (cy_sign cy (pss_with h) sk rnd msg)).
  Proof.
    split; [apply rsa_sign_pkcs1|]. intro K. eexists. split; [apply be_bytes_length|]. split; [|exact (rsa_sign_pss private public ecdsa h sk pk n e d rnd msg K)].
    change (value (be_bytes (digest_size h) rnd) = rnd mod 256 ^ N.of_nat (digest_size h)). apply value_be_bytes.
  Qed.
  Lemma rsa_sign_verify (rk : ring_keys) (t : key_type) (sk pk : str) (n e d : N) (r r' : mock) (c : signing_config) (env : sign_env)
      (vc : verifying_config) (venv : verify_env) (k : http_verifier) :
    rsa_keys private public (scheme_of t) sk pk n e d -> ring_signs cy rk t sk (sc_signature c) -> ring_verifies cy t pk k -> In k (vc_keys vc (sc_key_id c)) ->
    sys_clock_ok (se_sys env) -> sign mr_client r c env = Done (r', Ok tt) ->
    sc_label c = $"sig" -> sc_nonce c <> Some [] ->
    Forall component_rep (sc_components c) -> (forall q, In q (sc_components c) -> ~ signature_header q) ->
    mr_derive r (CHeader $"digest") = Done None -> sc_compute_digest c = true ->
    sc_digest c = sha256_digest \/ sc_digest c = sha512_digest -> vc_digests vc = default_digest_provider ->
    sys_clock_ok (ve_sys venv) -> vc_validate_date vc = false ->
    (forall x, created_at c (seconds (se_sys env)) = Some x -> (x <= seconds (ve_sys venv))%Z) ->
    (forall x, expires_at c (seconds (se_sys env)) = Some x -> (seconds (ve_sys venv) <= x)%Z) ->
    (forall q, In q (vc_required vc) -> (exists h, q = CHeader h) /\ In q (sc_components c) /\ has_value (mr_derive r') q) ->
    verify mr_server r' vc venv = Done (Ok (tt, sc_key_id c)).
  Proof.
    intros K S V I. intros. apply (mock_round r r' c env vc venv k); try assumption.
    apply (rsa_texts (scheme_of t) sk pk _ _ n e d); [exact K|exact (ring_signs_is cy rk t sk _ S)|exact (ring_verifies_is cy t pk _ V)].
  Qed.
  (** With PKCS #1 v1.5 there is one signature text for a message. *)
  Lemma rsa_one_text (h : hashing) (sk pk : str) (sg : http_signer) (vf : http_verifier) (n e d rnd : N) (msg text : str) :
    rsa_keys private public (pkcs1_with h) sk pk n e d -> signs_with cy (pkcs1_with h) sk sg -> verifies_by cy (pkcs1_with h) pk vf ->
    (vf_verify vf msg text = true <-> text = sg_sign sg rnd msg).
  Proof.
    intros K S V. rewrite (S rnd msg). split.
    - intro H. apply V in H. destruct H as (tag & -> & H). f_equal. now apply (rsa_one_tag private public ecdsa h sk pk n e d rnd msg tag K).
    - intros ->. apply V. eexists. split; [reflexivity|]. now apply (rsa_round private public ecdsa (pkcs1_with h) sk pk n e d).
  Qed.
  (** Accepted for another text. *)
  Lemma rsa_confused (s : scheme) (sk pk : str) (n e d rnd : N) (m1 m2 : str) : rsa_keys private public s sk pk n e d ->
    m1 <> m2 -> cy_verify cy s pk m2 (cy_sign cy s sk rnd m1) = true -> confused s m1 m2.
  Proof.
    intros K N H. pose proof K as (_ & P & _ & R). pose proof (room_pos s n R) as Z.
    assert (Rs : rsa_scheme s) by (intros ->; exact R). destruct (scheme_cases s Rs) as [h [-> | ->]].
    - left. exists h. split; [reflexivity|]. split; [exact N|].
      apply (proj1 (rsa_verify_iff private public ecdsa pk n e m2 _ P Z h)) in H.
      apply (pkcs1_binds h n e m1 m2 (cy_sign cy (pkcs1_with h) sk rnd m1)); [now apply (rsa_sign_pkcs1 private public ecdsa h sk pk n e d)|exact H].
    - right. exists h. split; [reflexivity|].
      apply (proj2 (rsa_verify_iff private public ecdsa pk n e m2 _ P Z h)) in H. destruct H as [salt' H].
      pose proof (rsa_sign_pss private public ecdsa h sk pk n e d rnd m1 K) as O.
      destruct (pss_binds h n e m1 m2 _ _ _ O H) as [E I].
      destruct (list_eq_dec ascii_dec (digest_of h m1) (digest_of h m2)) as [D|D]; [left; now split|].
      right. eexists _, salt'. split; [|exact E]. intro X. apply D. now apply I.
  Qed.
  Lemma rsa_tampering {R} (cr : client_request_like R) (L : client_laws cr) {S Rem} (sr : server_request_like S Rem) (SL : server_laws sr)
      (r r' : R) (c : signing_config) (env : sign_env) (s : S) (vc : verifying_config) (venv : verify_env) (rem : Rem) (kid : str)
      (sch : scheme) (sk pk : str) (n e d : N) :
    sys_clock_ok (se_sys env) -> sign cr r c env = Done (r', Ok tt) ->
    Forall component_rep (sc_components c) -> sc_nonce c <> Some [] -> ~ In "="%char (sc_label c) -> plain (sc_label c) ->
    rsa_keys private public sch sk pk n e d -> signs_with cy sch sk (sc_signature c) ->
    (forall k, In k (vc_keys vc (sc_key_id c)) -> verifies_by cy sch pk k) ->
    rl_derive (sr_rl sr) s (CHeader $"signature-input") = rl_derive (cr_rl cr) r' (CHeader $"signature-input") ->
    rl_derive (sr_rl sr) s (CHeader $"signature") = rl_derive (cr_rl cr) r' (CHeader $"signature") ->
    same_line_feeds (signed_view (cr_rl cr) r r') (rl_derive (sr_rl sr) s) (sc_components c) ->
    verify sr s vc venv = Done (Ok (rem, kid)) ->
    (forall q v, In q (sc_components c) -> signed_view (cr_rl cr) r r' q = Done (Some v) -> rl_derive (sr_rl sr) s q = Done (Some v))
    \/ exists m1 m2, two_bases (signed_view (cr_rl cr) r r') (rl_derive (sr_rl sr) s) c (seconds (se_sys env)) m1 m2 /\ confused sch m1 m2.
  Proof.
    intros Ck H Rp Nn Ne Pl K Sg Ks I1 I2 Lf V.
    destruct (tamper_values cr L r r' c env Ck H Rp Nn sr SL s vc venv I1 I2 rem kid Ne Pl) as [E|(m1 & m2 & k & N & Kin & Kv)];
      try assumption.
    - intro m. rewrite (Sg (se_rnd env) m), b64_bits_encode. split; [apply b64_plain|apply b64_clean].
    - now left.
    - right. exists m1, m2. split; [exact N|]. apply (rsa_confused sch sk pk n e d (se_rnd env) m1 m2 K (proj1 N)).
      apply (Ks k Kin) in Kv. destruct Kv as (tag & Et & Kv). rewrite (Sg (se_rnd env) m1) in Et.
      assert (X : Some tag = Some (cy_sign cy sch sk (se_rnd env) m1)) by (rewrite <- (proj2 (decode_bits _ _) Et); now apply decode_bits).
      injection X as ->. exact Kv.
  Qed.
  (** Tags of both paddings end with the same byte. *)
  Lemma last_byte (s : str) (c : ascii) : big_endian (s ++ [c]) mod 256 = code c.
  Proof.
    induction s as [|a s IH].
    - cbn [app big_endian List.length]. change (256 ^ N.of_nat 0) with 1. rewrite N.mul_1_r, N.add_0_r. apply N.mod_small, code_lt.
    - cbn [app big_endian]. rewrite app_length. cbn [List.length]. rewrite Nat.add_1_r, Nat2N.inj_succ, N.pow_succ_r'.
      replace (code a * (256 * 256 ^ N.of_nat (List.length s)) + big_endian (s ++ [c]))
        with (big_endian (s ++ [c]) + (code a * 256 ^ N.of_nat (List.length s)) * 256) by lia.
      now rewrite N.mod_add by lia.
  Qed.
  Lemma both_paddings (h h' : hashing) (n e : N) (msg msg' salt tag : str) :
    pkcs1_signature h n e msg tag -> pss_signature h' n e msg' salt tag -> exists d, digest_of h msg = d ++ [byte 188].
  Proof.
    intros (em & (ff & info & I & _ & _ & Ee & _) & _ & _ & O) (b & em' & _ & (zs & mask & masked & H & z & _ & _ & _ & _ & _ & _ & _ & Ee') & _ & _ & O').
    assert (E : big_endian em = big_endian em') by congruence. clear O O'.
    apply digest_info_iff in I; [|apply digest_length]. subst info. pose proof (digest_length h msg) as L.
    destruct (exists_last (l := digest_of h msg)) as (d & c & D); [intro X; rewrite X in L; pose proof (digest_size_pos h); cbn in L; lia|].
    exists d. rewrite D in *. f_equal. f_equal. apply (f_equal (fun x => x mod 256)) in E. rewrite Ee, Ee', !app_assoc, !last_byte in E.
    rewrite <- (of_code c). unfold byte. change (code (byte 188)) with 188 in E. now rewrite E.
  Qed.
  Lemma rsa_schemes_differ (h h' : hashing) (sk pk : str) (n e d rnd : N) (msg : str) :
    rsa_keys private public (pkcs1_with h) sk pk n e d -> rsa_keys private public (pss_with h') sk pk n e d ->
    (forall x, digest_of h msg <> x ++ [byte 188]) -> schemes_differ cy (pkcs1_with h) (pss_with h') sk pk rnd msg.
  Proof.
    intros K K' D. pose proof K as (_ & P & _ & R). pose proof (room_pos _ n R) as Z. split; apply not_true_is_false; intro V.
    - apply (proj2 (rsa_verify_iff private public ecdsa pk n e msg _ P Z h')) in V. destruct V as [salt V].
      destruct (both_paddings h h' n e msg msg salt _ (rsa_sign_pkcs1 private public ecdsa h sk pk n e d rnd msg K) V) as [x X]. now apply (D x).
    - apply (proj1 (rsa_verify_iff private public ecdsa pk n e msg _ P Z h)) in V.
      destruct (both_paddings h h' n e msg msg _ _ V (rsa_sign_pss private public ecdsa h' sk pk n e d rnd msg K')) as [x X]. now apply (D x).
  Qed.
  Lemma rsa_between (t : key_type) (sk pk : str) (n e d rnd : N) (msg : str) (ok : openssl_keys) (rk : ring_keys) (sg sg' : http_signer) (vf vf' : http_verifier) :
    t = RsaPssSha256 \/ t = RsaPssSha512 -> rsa_keys private public PSS_SHA512 sk pk n e d ->
    openssl_signs cy ok t sk sg -> openssl_verifies cy ok t pk vf -> ring_signs cy rk t sk sg' -> ring_verifies cy t pk vf' ->
    (forall x, digest_of (match t with RsaPssSha256 => With_SHA256 | _ => With_SHA512 end) msg <> x ++ [byte 188]) ->
    vf_verify vf' msg (sg_sign sg rnd msg) = false /\ vf_verify vf msg (sg_sign sg' rnd msg) = false.
  Proof.
    intros T K S V S' V' D. apply (between_pss cy ok rk sk pk t sg sg' vf vf' rnd msg); try assumption.
    assert (R : forall h, rsa_keys private public (pkcs1_with h) sk pk n e d).
    { intro h. destruct K as (A & B & C & R). split; [exact A|]. split; [exact B|]. split; [exact C|].
      destruct h; cbn [pkcs1_with room]; (apply (N.le_trans _ (2 ^ 1033)); [|exact R]); apply N.leb_le; vm_compute; reflexivity. }
    destruct T as [-> | ->].
    - exact (rsa_schemes_differ With_SHA256 With_SHA512 sk pk n e d rnd msg (R _) K D).
    - exact (rsa_schemes_differ With_SHA512 With_SHA512 sk pk n e d rnd msg (R _) K D).
  Qed.
End Crate.
(** Keys that are none. *)
Lemma rsa_other_keys (private : str -> option (N * N)) (ecdsa : crypto) (s : scheme) (key msg tag : str) : rsa_scheme s ->
  (forall n e, ~ (rsa_public_numbers key n e /\ ring_takes n e)) -> cy_verify (rsa_over private ring_rsa_public ecdsa) s key msg tag = false.
Proof.
  intros R N. apply rsa_verify_none; [exact R|]. destruct (ring_rsa_public key) as [[n e]|] eqn:E; [|reflexivity].
  apply ring_public_iff in E. now elim (N n e).
Qed.
Lemma rsa_wants_pkcs1 (private : str -> option (N * N)) (ecdsa : crypto) : wants_pkcs1 (rsa_over private ring_rsa_public ecdsa).
Proof.
  intros s key msg tag R V. destruct (ring_rsa_public key) as [[n e]|] eqn:E.
  - apply ring_public_iff in E. destruct E as [(nb & eb & md & ex & _ & _ & A & B & C) _]. now exists nb, eb, md, ex.
  - rewrite (rsa_verify_none private ring_rsa_public ecdsa key s msg tag R E) in V. discriminate.
Qed.
