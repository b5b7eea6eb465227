(** An RSA key for the examples. *)
From Verif Require Export RsaCrate.
From Verif Require Import StrFacts KeyFacts ShaFacts ShaStd RsaFacts RsaPss.
From Verif Require Base64Facts Tests.
Local Open Scope N_scope.

(** A key of 2048 bits: the product of the primes from 3 to 1481 without 211.  (Any RSA key
    will do; the primes of this one are easily checked.) *)
Definition few_divisors (p : N) : bool :=
  (1 <? p) && (p <? 1681) && forallb (fun d => (p =? d) || negb (p mod d =? 0)) (map N.of_nat (seq 2 39)).
Definition some_primes : list N := filter (fun p => few_divisors p && negb (p =? 211)) (map N.of_nat (seq 3 1479)).
Definition some_modulus : N := fold_right N.mul 1 some_primes.
Definition some_exponent : N := 65537.
Definition some_inverse : N := 85353753261993052815793832018572223026710576869163390466672809267761342432498582902931083657122556389243134094033221432794643944394313473.
Definition some_private (_ : str) : option (N * N) := Some (some_modulus, some_inverse).
(** RSAPublicKey *)
Definition some_public : str :=
  map ascii_of_N [48; 130; 1; 10; 2; 130; 1; 1; 0] ++ be_bytes 256 some_modulus ++ map ascii_of_N [2; 3; 1; 0; 1].
Lemma few_divisors_prime (p : N) : few_divisors p = true -> is_prime p.
Proof.
  unfold few_divisors. rewrite !andb_true_iff, forallb_forall, !N.ltb_lt. intros [[L U] F]. split; [exact L|].
  assert (G : forall d, (d | p) -> d <= 40 -> d = 1 \/ d = p).
  { intros d [q Q] D. assert (d <> 0) by (intros ->; lia). destruct (N.eq_dec d 1) as [E|E]; [now left|right].
    assert (I : In d (map N.of_nat (seq 2 39))) by (apply in_map_iff; exists (N.to_nat d); split; [lia|apply in_seq; lia]).
    specialize (F d I). apply orb_true_iff in F. destruct F as [F|F]; [now apply N.eqb_eq in F|].
    apply negb_true_iff, N.eqb_neq in F. elim F. rewrite Q. now apply N.mod_mul. }
  intros d [q Q]. destruct (N.le_gt_cases d 40) as [D|D]; [apply G; [now exists q|exact D]|].
  assert (Qs : q <= 40) by nia. destruct (G q) as [E|E]; [exists d; lia|exact Qs|right; nia|left; nia].
Qed.
Lemma long_tagged (t a b : N) (v : str) : a < 256 -> b < 256 -> a <> 0 -> N.of_nat (List.length v) = 256 * a + b ->
  tagged t v (map ascii_of_N [t; 130; a; b] ++ v).
Proof.
  intros A B Z L. exists (map ascii_of_N [130; a; b]). split; [|reflexivity]. cbn [map].
  apply (length_long _ (ascii_of_N a) [ascii_of_N b]).
  - lia.
  - cbn. lia.
  - now rewrite code_of.
  - cbn [big_endian List.length]. rewrite !code_of by assumption. change (256 ^ N.of_nat 1) with 256. change (256 ^ N.of_nat 0) with 1. lia.
Qed.
(** The key for a modulus of 2048 bits. *)
Lemma public_of (n : N) : N.Odd n -> 128 * 256 ^ 255 <= n < 256 ^ 256 ->
  ring_rsa_public (map ascii_of_N [48; 130; 1; 10; 2; 130; 1; 1; 0] ++ be_bytes 256 n ++ map ascii_of_N [2; 3; 1; 0; 1]) = Some (n, 65537).
Proof.
  intros O R. apply ring_public_iff. pose proof (be_bytes_length 256 n) as L.
  assert (V : big_endian (be_bytes 256 n) = n) by (apply big_endian_of; exact (proj2 R)).
  set (nb := ascii_of_N 0 :: be_bytes 256 n). assert (Ln : N.of_nat (List.length nb) = 257) by (unfold nb; cbn [List.length]; rewrite L; reflexivity).
  split.
  - exists nb, (map ascii_of_N [1; 0; 1]), (map ascii_of_N [2; 130; 1; 1] ++ nb), (map ascii_of_N [2; 3; 1; 0; 1]).
    split; [|split; [|split; [|split]]].
    + assert (P : 0 < 256 ^ 255) by (apply N.neq_0_lt_0, N.pow_nonzero; lia).
      split; [lia|]. split; [unfold nb; cbn [big_endian]; rewrite V; change (code (ascii_of_N 0)) with 0; lia|]. rewrite Ln.
      change (257 - 1) with 256. change (257 - 2) with 255. split; [|right; exact (proj1 R)].
      assert (Q : 256 ^ 256 = 256 * 256 ^ 255) by (rewrite <- N.pow_succ_r'; reflexivity). lia.
    + split; [lia|]. split; [reflexivity|]. cbn [map List.length]. split; [reflexivity|]. right. cbv. discriminate.
    + apply long_tagged; try lia.
    + exists [ascii_of_N 3]. split; [apply (length_short 3); lia|reflexivity].
    + change (map ascii_of_N [48; 130; 1; 10; 2; 130; 1; 1; 0] ++ be_bytes 256 n ++ map ascii_of_N [2; 3; 1; 0; 1])
        with (map ascii_of_N [48; 130; 1; 10] ++ ((map ascii_of_N [2; 130; 1; 1] ++ nb) ++ map ascii_of_N [2; 3; 1; 0; 1])).
      apply long_tagged; try lia. rewrite !app_length, !Nat2N.inj_add, Ln. reflexivity.
  - split; [exact O|]. split; [|split; [now exists 32768|split; [lia|reflexivity]]].
    assert (P : 256 ^ 256 <= 256 ^ 1024) by (apply N.pow_le_mono_r; lia). lia.
Qed.
Lemma some_size : N.odd some_modulus && (128 * 256 ^ 255 <=? some_modulus) && (some_modulus <? 256 ^ 256) = true.
Proof. vm_compute. reflexivity. Qed.
Lemma some_inverses : forallb (fun p => (some_exponent * some_inverse) mod (p - 1) =? (1 mod (p - 1))) some_primes = true.
Proof. vm_compute. reflexivity. Qed.
Lemma some_primes_range (p : N) : In p some_primes -> is_prime p /\ 3 <= p.
Proof.
  unfold some_primes. intro I. apply filter_In in I. destruct I as [I J]. apply andb_true_iff in J. split; [exact (few_divisors_prime p (proj1 J))|].
  apply in_map_iff in I. destruct I as (i & <- & I). apply in_seq in I. lia.
Qed.
Lemma some_nodup : NoDup some_primes.
Proof. unfold some_primes. apply NoDup_filter. apply FinFun.Injective_map_NoDup; [intros x y; lia|apply seq_NoDup]. Qed.
Lemma inverses_numbers (ps : list N) (e d : N) : NoDup ps -> (forall p, In p ps -> is_prime p /\ 3 <= p) ->
  forallb (fun p => (e * d) mod (p - 1) =? (1 mod (p - 1))) ps = true -> rsa_numbers (fold_right N.mul 1 ps) e d.
Proof.
  intros N P F. exists ps. split; [exact N|]. split; [apply Forall_forall; intros p I; exact (proj1 (P p I))|]. split; [reflexivity|].
  apply Forall_forall. intros p I. rewrite forallb_forall in F. specialize (F p I). apply N.eqb_eq in F. destruct (P p I) as [_ L].
  rewrite (N.mod_small 1) in F by lia. exists ((e * d) / (p - 1)). pose proof (N.div_mod (e * d) (p - 1) ltac:(lia)) as D. lia.
Qed.
Lemma roomy (s : scheme) (n : N) : rsa_scheme s -> 2 ^ 1033 <= n -> room s n.
Proof.
  intros R L. destruct s; cbn [room]; try (apply (N.le_trans _ (2 ^ 1033)); [apply N.leb_le; vm_compute; reflexivity|exact L]).
  apply R. reflexivity.
Qed.
Lemma some_keys (s : scheme) : rsa_scheme s -> rsa_keys some_private ring_rsa_public s [] some_public some_modulus some_exponent some_inverse.
Proof.
  intro R. pose proof some_size as S. apply andb_true_iff in S. destruct S as [S U]. apply andb_true_iff in S. destruct S as [O L].
  apply N.odd_spec in O. apply N.leb_le in L. apply N.ltb_lt in U.
  split; [reflexivity|]. split; [exact (public_of some_modulus O (conj L U))|]. split.
  - exact (inverses_numbers some_primes some_exponent some_inverse some_nodup some_primes_range some_inverses).
  - apply roomy; [exact R|]. apply (N.le_trans _ (128 * 256 ^ 255)); [apply N.leb_le; vm_compute; reflexivity|exact L].
Qed.
Lemma abc_last (d x : str) (c : ascii) : b64_encode d = $"3a81oZNherrMQXNJriBBMRLm+k6JqX6iCp7u5ktV05ohkpkqJ0/BqDa6PCOj/uu9RU1EI2Q86A4qmslPpUyknw==" ->
  d = x ++ [c] -> c = byte 159.
Proof.
  intros B ->. pose proof (Base64Facts.b64_decode_encode (x ++ [c])) as D. rewrite B in D. clear B.
  vm_compute in D. injection D as D. apply (f_equal (@rev ascii)) in D. rewrite rev_app_distr in D. vm_compute in D. injection D as <- _. reflexivity.
Qed.
Lemma with_sha512 (m : str) : digest_of With_SHA512 m = sha512 m.
Proof. reflexivity. Qed.
Lemma abc_end (x : str) : digest_of With_SHA512 $"abc" <> x ++ [byte 188].
Proof. rewrite with_sha512. intro E. pose proof (abc_last (sha512 $"abc") x (byte 188) Tests.sha512_abc E) as C. discriminate C. Qed.
Lemma rubbish_key (n e : N) : ~ (rsa_public_numbers $"rubbish" n e /\ ring_takes n e).
Proof. intro H. apply ring_public_iff in H. vm_compute in H. discriminate. Qed.
Lemma rsa_case (ecdsa : crypto) : let cy := rsa_over some_private ring_rsa_public ecdsa in
  (forall s, rsa_scheme s -> rsa_keys some_private ring_rsa_public s [] some_public some_modulus some_exponent some_inverse)
  /\ (forall t, t <> EcdsaP256Sha256 -> exists sg vf, ring_signs cy (RingKeys Some Some Some) t [] sg /\ ring_verifies cy t some_public vf
        /\ signs_with cy (scheme_of t) [] sg /\ verifies_by cy (scheme_of t) some_public vf)
  /\ (forall n e, ~ (rsa_public_numbers $"rubbish" n e /\ ring_takes n e))
  /\ (forall x, digest_of With_SHA512 $"abc" <> x ++ [byte 188]).
Proof.
  intro cy. split; [exact some_keys|]. split; [|split].
  - intros t T. destruct (signer_for_ring cy t []) as (sg & E & _ & S). destruct (verifier_for_ring cy t some_public) as (vf & E' & _ & V).
    exists sg, vf. split; [|split; [|split; [exact S|exact V]]].
    + apply (rs_pkcs8 _ _ _ _ _ []); [destruct t; reflexivity|rewrite <- E; destruct t; reflexivity].
    + apply rv_der. rewrite <- E'. destruct t; reflexivity || (elim T; reflexivity).
  - exact rubbish_key.
  - exact abc_end.
Qed.
