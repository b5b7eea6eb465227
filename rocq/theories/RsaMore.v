(** RSA keys and signatures behind the signers and verifiers of the crate. *)
From Verif Require Export RsaPss.
From Verif Require Import StrFacts SpecFacts AlgFacts KeyFacts RsaNum.
Local Open Scope N_scope.

(** ** Public keys *)
Lemma der_positive_iff (s : str) (x : N) : der_positive s = Some x <-> der_integer s x.
Proof.
  unfold der_integer. destruct s as [|c s]; cbn [der_positive].
  { split; [discriminate|]. intros (P & E & _). cbn in E. lia. }
  cbn [List.length]. replace (N.of_nat (S (List.length s)) - 1) with (N.of_nat (List.length s)) by lia.
  pose proof (big_endian_lt s) as L. set (q := 256 ^ N.of_nat (List.length s)) in *. assert (Q : q <> 0) by (apply N.pow_nonzero; lia).
  destruct (N.leb_spec 128 (code c)) as [H|H].
  { split; [discriminate|]. intros (_ & E & B & _). cbn [big_endian] in E. fold q in E. nia. }
  destruct (N.eqb_spec (code c) 0) as [Z|Z].
  - destruct s as [|c' s].
    + split; [discriminate|]. intros (P & E & _). cbn [big_endian List.length] in E. rewrite Z in E. lia.
    + cbn [List.length] in *. replace (N.of_nat (S (S (List.length s))) - 2) with (N.of_nat (List.length s)) by lia.
      assert (Eq : q = 256 * 256 ^ N.of_nat (List.length s)) by (unfold q; rewrite Nat2N.inj_succ; apply N.pow_succ_r').
      pose proof (big_endian_lt s) as L'. set (p := 256 ^ N.of_nat (List.length s)) in *. assert (P : p <> 0) by (apply N.pow_nonzero; lia).
      assert (Eb : big_endian (c :: c' :: s) = big_endian (c' :: s)) by (cbn [big_endian]; rewrite Z; lia). rewrite Eb.
      assert (Ec : big_endian (c' :: s) = code c' * p + big_endian s) by reflexivity. rewrite be_value_spec.
      destruct (N.leb_spec 128 (code c')) as [H'|H'].
      * split; [intro E; injection E as <-|]; [|now intros (_ & -> & _)].
        rewrite Ec. pose proof (code_lt c'). split; [nia|]. split; [reflexivity|]. split; [nia|]. right. nia.
      * split; [discriminate|]. intros (_ & E & _ & [B|B]); [lia|]. rewrite Ec in E. nia.
  - rewrite be_value_spec. cbn [big_endian]. fold q. split; [intro E; injection E as <-|]; [|now intros (_ & -> & _)].
    split; [nia|]. split; [reflexivity|]. split; [nia|]. destruct s as [|c' s]; [now left|]. right. cbn [List.length] in *.
    replace (N.of_nat (S (S (List.length s))) - 2) with (N.of_nat (List.length s)) by lia.
    assert (Eq : q = 256 * 256 ^ N.of_nat (List.length s)) by (unfold q; rewrite Nat2N.inj_succ; apply N.pow_succ_r'). nia.
Qed.
Lemma limits_iff (n e : N) : ring_limits n e = true <-> ring_takes n e.
Proof.
  unfold ring_limits, ring_takes. rewrite !andb_true_iff, !N.odd_spec, N.leb_le, Nat.leb_le, !N.leb_le.
  destruct (N.eq_dec n 0) as [->|Z].
  { split; [intros (((((O & _) & _) & _) & _) & _)|intros (O & _)]; destruct O as [x O]; lia. }
  pose proof (size_bits n Z) as B. pose proof (length_bytes_of n Z) as [K [L U]]. set (k := byte_length (N.size n)) in *.
  assert (A : (256 <= k)%nat <-> 256 ^ 255 <= n).
  { split; intro H.
    - apply (N.le_trans _ (256 ^ (N.of_nat k - 1))); [apply N.pow_le_mono_r; [discriminate|]; clear - H; lia|exact L].
    - assert (X : 255 < N.of_nat k) by (apply (N.pow_lt_mono_r_iff 256); [reflexivity|]; exact (N.le_lt_trans _ _ _ H U)). clear - X. lia. }
  assert (C : N.size n <= 8192 <-> n < 256 ^ 1024).
  { replace (256 ^ 1024) with (2 ^ 8192) by (change 256 with (2 ^ 8); rewrite <- N.pow_mul_r; reflexivity). destruct B as [B1 [B2 B3]]. split; intro H.
    - apply (N.lt_le_trans _ (2 ^ N.size n)); [exact B3|]. apply N.pow_le_mono_r; [discriminate|exact H].
    - assert (X : N.size n - 1 < 8192) by (apply (N.pow_lt_mono_r_iff 2); [reflexivity|]; exact (N.le_lt_trans _ _ _ B2 H)).
      clear - X B1. lia. }
  rewrite A, C. clear. generalize (256 ^ 255), (256 ^ 1024). intros lo hi. change (2 ^ 33) with (8589934591 + 1). split; [intros (((((? & ?) & ?) & ?) & ?) & ?)|intros (? & [? ?] & ? & ? & ?)]; repeat split; auto; lia.
Qed.
Lemma ring_public_iff (key : str) (n e : N) : ring_rsa_public key = Some (n, e) <-> rsa_public_numbers key n e /\ ring_takes n e.
Proof.
  unfold ring_rsa_public, rsa_public_numbers, tag_sequence, tag_integer. split.
  - destruct (der_tlv (ascii_of_N 48) key) as [[body [|? ?]]|] eqn:E1; try discriminate. apply tlv_whole in E1; [|lia].
    destruct (der_tlv (ascii_of_N 2) body) as [[nb rest]|] eqn:E2; [|discriminate]. apply der_tlv_iff in E2; [|lia]. destruct E2 as (x & T2 & ->).
    destruct (der_tlv (ascii_of_N 2) rest) as [[eb [|? ?]]|] eqn:E3; try discriminate. apply tlv_whole in E3; [|lia].
    destruct (der_positive nb) as [n'|] eqn:P1; [|discriminate]. destruct (der_positive eb) as [e'|] eqn:P2; [|discriminate].
    apply der_positive_iff in P1, P2. destruct (ring_limits n' e') eqn:Lm; [|discriminate]. intro H. injection H as -> ->.
    split; [|now apply limits_iff]. exists nb, eb, x, rest. auto.
  - intros [(nb & eb & x & y & P1 & P2 & T1 & T2 & T3) Lm]. apply tlv_whole in T3; [|lia]. rewrite T3.
    rewrite (proj2 (der_tlv_iff nb y (x ++ y) 2 ltac:(lia))) by eauto. apply tlv_whole in T2; [|lia]. rewrite T2.
    apply der_positive_iff in P1, P2. rewrite P1, P2. apply limits_iff in Lm. now rewrite Lm.
Qed.

(** ** The primitives *)
Section Over.
  Context (private public : str -> option (N * N)) (ecdsa : crypto).
  Let cy := rsa_over private public ecdsa.
  Lemma rsa_verify_iff (key : str) (n e : N) (msg tag : str) : public key = Some (n, e) -> n <> 0 -> forall h : hashing,
    (cy_verify cy (pkcs1_with h) key msg tag = true <-> pkcs1_signature h n e msg tag)
    /\ (cy_verify cy (pss_with h) key msg tag = true <-> exists salt, pss_signature h n e msg salt tag).
  Proof.
    intros K Z h. rewrite <- pkcs1_verify_iff, <- pss_check_iff by exact Z.
    destruct h; cbn [cy rsa_over cy_verify pkcs1_with pss_with rsa_hash hf_of]; rewrite K; split; reflexivity.
  Qed.
  Lemma rsa_verify_none (key : str) (s : scheme) (msg tag : str) : rsa_scheme s -> public key = None -> cy_verify cy s key msg tag = false.
  Proof. intros R K. destruct s; cbn [cy rsa_over cy_verify]; rewrite ?K; try reflexivity. now elim R. Qed.
  Lemma pkcs1_room (h : hashing) (n : N) : room (pkcs1_with h) n -> exists k, has_bytes n k /\ (digest_size h + 30 <= k)%nat.
  Proof.
    intro R. assert (R' : 256 ^ (N.of_nat (digest_size h) + 29) <= n) by now destruct h. clear R.
    assert (Z : n <> 0) by (assert (256 ^ (N.of_nat (digest_size h) + 29) <> 0) by (apply N.pow_nonzero; lia); lia).
    exists (byte_length (N.size n)). pose proof (length_bytes_of n Z) as B. split; [exact B|]. destruct B as [K [L U]].
    assert (N.of_nat (digest_size h) + 29 < N.of_nat (byte_length (N.size n))); [|lia]. apply (N.pow_lt_mono_r_iff 256); lia.
  Qed.
  Lemma pss_room (h : hashing) (n : N) : room (pss_with h) n -> exists b, has_bits n b /\ 8 * N.of_nat (2 * digest_size h + 2) <= b + 6.
  Proof.
    intro R. assert (R' : 2 ^ (16 * N.of_nat (digest_size h) + 9) <= n) by now destruct h. clear R.
    assert (Z : n <> 0) by (assert (2 ^ (16 * N.of_nat (digest_size h) + 9) <> 0) by (apply N.pow_nonzero; lia); lia).
    exists (N.size n). pose proof (size_bits n Z) as B. split; [exact B|]. destruct B as [K [L U]].
    assert (16 * N.of_nat (digest_size h) + 9 < N.size n); [|lia]. apply (N.pow_lt_mono_r_iff 2); lia.
  Qed.
  Lemma room_pos (s : scheme) (n : N) : room s n -> n <> 0.
  Proof. intros R ->. destruct s; cbn [room] in R; try contradiction; revert R; apply N.lt_nge; vm_compute; reflexivity. Qed.
  (** What is signed. *)
  Lemma rsa_sign_pkcs1 (h : hashing) (sk pk : str) (n e d rnd : N) (msg : str) : rsa_keys private public (pkcs1_with h) sk pk n e d ->
    pkcs1_signature h n e msg (cy_sign cy (pkcs1_with h) sk rnd msg).
  Proof.
    intros (S & P & K & R). destruct (pkcs1_room h n R) as (k & B & L). pose proof (pkcs1_sign_opens h n e d msg k K B L) as O.
    destruct h; cbn [cy rsa_over cy_sign pkcs1_with rsa_hash]; rewrite S; exact O.
  Qed.
  Lemma rsa_sign_pss (h : hashing) (sk pk : str) (n e d rnd : N) (msg : str) : rsa_keys private public (pss_with h) sk pk n e d ->
    pss_signature h n e msg (be_bytes (digest_size h) rnd) (cy_sign cy (pss_with h) sk rnd msg).
  Proof.
    intros (S & P & K & R). destruct (pss_room h n R) as (b & B & L). pose proof (pss_sign_opens h n e d rnd msg b K B L) as O.
    destruct h; cbn [cy rsa_over cy_sign pss_with rsa_hash]; rewrite S; exact O.
  Qed.
  Lemma scheme_cases (s : scheme) : rsa_scheme s -> exists h, s = pkcs1_with h \/ s = pss_with h.
  Proof.
    intro R. destruct s; [exists With_SHA256|exists With_SHA512|exists With_SHA256|exists With_SHA512|now elim R]; cbn; auto.
  Qed.
  Lemma rsa_round (s : scheme) (sk pk : str) (n e d rnd : N) (msg : str) : rsa_keys private public s sk pk n e d ->
    cy_verify cy s pk msg (cy_sign cy s sk rnd msg) = true.
  Proof.
    intro K. pose proof K as (_ & P & _ & R). pose proof (room_pos s n R) as Z.
    assert (Rs : rsa_scheme s) by (intros ->; exact R). destruct (scheme_cases s Rs) as [h [-> | ->]].
    - apply (proj1 (rsa_verify_iff pk n e msg _ P Z h)). now apply (rsa_sign_pkcs1 h sk pk n e d).
    - apply (proj2 (rsa_verify_iff pk n e msg _ P Z h)). eexists. now apply (rsa_sign_pss h sk pk n e d rnd msg).
  Qed.
  Lemma rsa_one_tag (h : hashing) (sk pk : str) (n e d rnd : N) (msg tag : str) : rsa_keys private public (pkcs1_with h) sk pk n e d ->
    (cy_verify cy (pkcs1_with h) pk msg tag = true <-> tag = cy_sign cy (pkcs1_with h) sk rnd msg).
  Proof.
    intro K. pose proof (rsa_sign_pkcs1 h sk pk n e d rnd msg K) as O. pose proof K as (_ & P & Nm & R). pose proof (room_pos _ n R) as Z.
    split.
    - intro V. apply (proj1 (rsa_verify_iff pk n e msg tag P Z h)) in V. now apply (pkcs1_unique h n e d msg).
    - intros ->. now apply (rsa_round (pkcs1_with h) sk pk n e d).
  Qed.
End Over.
