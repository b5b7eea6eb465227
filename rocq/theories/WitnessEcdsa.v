(** Keys on P-256, and a small curve for the examples: y^2 = x^3 + 2 x + 2 over the field of 17 elements, 19 points. *)
From Verif Require Export EcdsaCrate EcdsaP256.
From Verif Require Import StrFacts KeyFacts ShaFacts RsaFacts.
From Verif Require Base64Facts Tests.
Local Open Scope Z_scope.

Definition small_curve : curve := Curve 17 2 2 19 5 1.
Definition small_point (i : nat) : point :=
  nth i [None; Some (5, 1); Some (6, 3); Some (10, 6); Some (3, 1); Some (9, 16); Some (16, 13); Some (0, 6); Some (13, 7); Some (7, 6); Some (7, 11);
         Some (13, 10); Some (0, 11); Some (16, 4); Some (9, 1); Some (3, 16); Some (10, 11); Some (6, 14); Some (5, 16)] None.
Lemma prime_17 : prime 17. Proof. apply no_divisors_prime; [reflexivity|lia]. Qed.
Lemma prime_19 : prime 19. Proof. apply no_divisors_prime; [reflexivity|lia]. Qed.
Definition point_eqb (P Q : point) : bool :=
  match P, Q with None, None => true | Some (x, y), Some (x', y') => (x =? x') && (y =? y') | _, _ => false end.
Lemma point_eqb_eq (P Q : point) : point_eqb P Q = true -> P = Q.
Proof. destruct P as [[x y]|], Q as [[x' y']|]; cbn; try discriminate; [|reflexivity]. intro H. f_equal. f_equal; lia. Qed.
Lemma small_on (i : nat) : (i < 19)%nat -> on_curve small_curve (small_point i).
Proof.
  intro I. assert (A : forallb (fun i => match small_point i with Some (x, y) => (0 <=? x) && (0 <=? y) && on_curveb small_curve x y | None => true end) (seq 0 19) = true) by (vm_compute; reflexivity).
  rewrite forallb_forall in A. specialize (A i ltac:(apply in_seq; lia)). cbv beta in A. destruct (small_point i) as [[x y]|]; [|exact Logic.I].
  apply andb_true_iff in A. destruct A as [A B]. apply andb_true_iff in A. apply on_curveb_iff in B; [exact B|reflexivity|lia|lia].
Qed.
Lemma small_next (i : nat) : (i < 18)%nat -> point_add small_curve (small_point i) (small_point 1) = small_point (S i).
Proof.
  intro I. assert (A : forallb (fun i => point_eqb (point_add small_curve (small_point i) (small_point 1)) (small_point (S i))) (seq 0 18) = true) by (vm_compute; reflexivity).
  rewrite forallb_forall in A. specialize (A i ltac:(apply in_seq; lia)). now apply point_eqb_eq.
Qed.
Lemma small_good : good_curve small_curve.
Proof.
  split; [exact prime_17|]. split; [cbn [cv_p small_curve]; lia|]. split; [exact prime_19|]. split; [cbn [cv_n small_curve]; lia|].
  split; [intros [k H]; cbn [cv_p cv_a cv_b small_curve] in H; lia|]. split; [exact (small_on 1 ltac:(lia))|].
  assert (S : forall k, (k < 19)%nat -> multiple small_curve (small_point 1) k (small_point k)).
  { induction k as [|k IH]; intro L; [constructor|]. apply (mult_S small_curve (small_point 1) k (small_point k)); [apply IH; lia|].
    apply (sum_iff' small_curve prime_17); [cbn; lia|apply small_on; lia|apply small_on; lia|]. symmetry. apply small_next. lia. }
  change (Z.to_nat (cv_n small_curve)) with 19%nat. apply (mult_S small_curve _ 18 (small_point 18)); [apply S; lia|].
  apply sum_opposite. now exists 1.
Qed.
Lemma small_group : curve_group small_curve.
Proof. exact (good_group small_curve small_good). Qed.

(** ** Keys *)
Definition small_private (_ : str) : option Z := Some 7.
Definition small_key : str := byte 4 :: be_bytes 32 0 ++ be_bytes 32 6.
(** The first is out of range, the second has the abscissa 0. *)
Definition small_nonces (_ : N) : list Z := [0; 7; 1; 2].
(** SubjectPublicKeyInfo of a P-256 key *)
Definition small_spki : str :=
  map ascii_of_N [48; 89; 48; 19; 6; 7; 42; 134; 72; 206; 61; 2; 1; 6; 8; 42; 134; 72; 206; 61; 3; 1; 7; 3; 66; 0]%N ++ small_key.
Lemma small_multiple (k : Z) (R : point) : times small_curve (Z.to_nat k) (Some (5, 1)) = R -> multiple small_curve (Some (5, 1)) (Z.to_nat k) R.
Proof. intros <-. apply (multiple_iff small_curve small_group); [exact (small_on 1 ltac:(lia))|reflexivity]. Qed.
Lemma small_public : public_point small_curve small_key (Some (0, 6)).
Proof. apply key_iff; [reflexivity|]. vm_compute. reflexivity. Qed.
Lemma small_keys (sk : str) : ec_keys small_curve small_private sk small_key 7 (Some (0, 6)).
Proof.
  split; [reflexivity|]. split; [cbn [cv_n small_curve]; lia|]. split; [exact small_public|]. apply small_multiple. vm_compute. reflexivity.
Qed.
Lemma small_made (z k x y r : Z) : 0 < k < 19 -> times small_curve (Z.to_nat k) (Some (5, 1)) = Some (x, y) -> x mod 19 = r -> 0 < r -> ~ (19 | z + r * 7) ->
  exists s, made_with small_curve 7 z k r s.
Proof.
  intros K M X R N. assert (r < 19) by (subst r; apply Z.mod_pos_bound; lia).
  exists (((z + r * 7) * inverse 19 k) mod 19). pose proof (Z.mod_pos_bound ((z + r * 7) * inverse 19 k) 19 ltac:(lia)) as B.
  assert (E : same 19 (k * (((z + r * 7) * inverse 19 k) mod 19)) (z + r * 7)).
  { rewrite Z.mul_comm. apply (divide_by small_curve small_group k _ _ K). apply EcdsaGroup.same_mod. lia. }
  split; [exact K|]. split; [cbn [cv_n small_curve]; lia|]. split.
  - cbn [cv_n small_curve]. enough (((z + r * 7) * inverse 19 k) mod 19 <> 0) by lia. intro F. rewrite F, Z.mul_0_r in E.
    apply N. apply same_zero. now apply same_sym.
  - split; [|exact E]. exists x, y. split; [now apply small_multiple|]. subst r. apply same_sym, EcdsaGroup.same_mod. discriminate.
Qed.
Lemma small_draws : enough_draws small_curve 7 small_nonces.
Proof.
  intros rnd msg. set (z := hash_number msg). destruct (Zdivide_dec 19 (z + 5 * 7)) as [D|D].
  - destruct (small_made z 2 6 3 6) as (s & M); [lia|vm_compute; reflexivity|reflexivity|lia| |exists 2, 6, s; split; [cbn; tauto|exact M]].
    intro D'. destruct D as [a D], D' as [b D']. lia.
  - destruct (small_made z 1 5 1 5) as (s & M); [lia|vm_compute; reflexivity|reflexivity|lia|exact D|exists 1, 5, s; split; [cbn; tauto|exact M]].
Qed.
(** Not a key: compressed; off the curve; the point at infinity. *)
Lemma small_others : forall Q, ~ public_point small_curve (byte 2 :: be_bytes 32 5) Q /\ ~ public_point small_curve (byte 4 :: be_bytes 32 5 ++ be_bytes 32 2) Q
  /\ ~ public_point small_curve [byte 0] Q.
Proof.
  intro Q. split; [|split]; intro H; apply key_iff in H; try reflexivity; vm_compute in H; discriminate.
Qed.
Lemma hash_of (m t h : str) : b64_encode (sha256 m) = t -> b64_decode t = Some h -> hash_number m = Z.of_N (be_value h).
Proof.
  intros E D. unfold hash_number. rewrite <- be_value_spec. do 2 f_equal. rewrite <- E, Base64Facts.b64_decode_encode in D. now injection D.
Qed.
Lemma ecdsa_case (rp rq : str -> option (N * N)) : let cy := rsa_over rp rq (ecdsa_over small_curve small_private small_nonces) in
  good_curve small_curve /\ ec_keys small_curve small_private [] small_key 7 (Some (0, 6)) /\ enough_draws small_curve 7 small_nonces
  /\ exists sg vf, ring_signs cy (RingKeys Some Some Some) EcdsaP256Sha256 [] sg /\ ring_verifies cy EcdsaP256Sha256 small_key vf
       /\ signs_with cy ECDSA_P256_SHA256 [] sg /\ verifies_by cy ECDSA_P256_SHA256 small_key vf.
Proof.
  intro cy. split; [exact small_good|]. split; [exact (small_keys [])|]. split; [exact small_draws|].
  destruct (signer_for_ring cy EcdsaP256Sha256 []) as (sg & E & _ & S). destruct (verifier_for_ring cy EcdsaP256Sha256 small_key) as (vf & E' & _ & V).
  exists sg, vf. split; [|split; [|split; [exact S|exact V]]].
  - apply (rs_pkcs8 _ _ _ _ _ []); [reflexivity|rewrite <- E; reflexivity].
  - assert (K : spki_key small_spki = Some small_key) by (vm_compute; reflexivity). pose proof K as K'. apply spki_key_iff in K'. destruct K' as (oid & O).
    apply (rv_spki_der _ _ _ _ small_spki oid); [exact O|]. unfold verify_new_spki_der. rewrite K. exact E'.
Qed.
(** Two messages, and a number to draw. *)
Lemma hash_abc : hash_number $"abc" mod 19 = 3.
Proof.
  destruct (b64_decode $"ungWv48Bz+pBQUDeXa4iI7ADYaOWF3qctBD/YfIAFa0=") as [h|] eqn:E; [|vm_compute in E; discriminate].
  rewrite (hash_of _ _ h Tests.sha256_abc E). vm_compute in E. injection E as <-. vm_compute. reflexivity.
Qed.
Lemma digest_is (b : str) : dg_digest sha256_digest b = b64_encode (sha256 b).
Proof. reflexivity. Qed.
Lemma hash_body : hash_number Tests.hello_body mod 19 = 15.
Proof.
  destruct (b64_decode $"X48E9qOokqqrvdts8nOJRJN3OWDUoyWxBf7kbu9DBPE=") as [h|] eqn:E; [|vm_compute in E; discriminate].
  pose proof Tests.digest_body as B. rewrite digest_is in B.
  rewrite (hash_of _ _ h B E). vm_compute in E. injection E as <-. vm_compute. reflexivity.
Qed.
Lemma two_hashes (a b : Z) : a mod 19 = 3 -> b mod 19 = 15 -> ~ same 19 a b /\ ~ same 19 (a + b) 0.
Proof. intros A B. split; intro H; apply same_iff in H; lia. Qed.
Lemma two_messages_case : 0 < 1 < cv_n small_curve /\ multiple small_curve (Some (5, 1)) (Z.to_nat 1) (Some (5, 1)) /\ ~ same 19 5 0
  /\ ~ same 19 (hash_number $"abc") (hash_number Tests.hello_body) /\ ~ same 19 (hash_number $"abc" + hash_number Tests.hello_body) 0.
Proof.
  split; [cbn [cv_n small_curve]; lia|]. split; [apply small_multiple; vm_compute; reflexivity|]. split; [intros [k H]; lia|].
  exact (two_hashes _ _ hash_abc hash_body).
Qed.
(** A signature that is accepted. *)
Lemma accepted_case (rp rq : str -> option (N * N)) : let cy := rsa_over rp rq (ecdsa_over small_curve small_private small_nonces) in
  exists tag, cy_verify cy ECDSA_P256_SHA256 small_key $"abc" tag = true /\ List.length tag = 8%nat.
Proof.
  intro cy. destruct (ec_signs rp rq small_curve small_private small_nonces small_good [] small_key 7 (Some (0, 6)) 0 $"abc" (small_keys []) small_draws) as (r & s & F & V & T).
  exists (signature_bytes r s). destruct V as (R & S & V). cbn [cv_n small_curve] in R, S. split.
  - apply ec_verify; [exact small_good|]. exists (Some (0, 6)), r, s. split; [exact small_public|]. split; [apply der_is; [lia|lia|reflexivity]|now split; [exact R|split; [exact S|exact V]]].
  - assert (L : forall x, 0 < x < 19 -> List.length (integer_bytes (Z.to_N x)) = 1%nat).
    { intros x X. pose proof (der_integer_unique _ [ascii_of_N (Z.to_N x)] _ (integer_der (Z.to_N x) ltac:(lia))) as U. rewrite U; [reflexivity|].
      split; [lia|]. split; [cbn [big_endian List.length]; rewrite code_of by lia; change (256 ^ N.of_nat 0)%N with 1%N; lia|]. split; [cbn [List.length]; change (256 ^ (N.of_nat 1 - 1))%N with 1%N; lia|]. now left. }
    unfold signature_bytes, der_short. cbn [app List.length]. rewrite app_length. cbn [List.length]. rewrite !L by assumption. reflexivity.
Qed.

(** ** The private number 1 on P-256 *)
Definition p256_private (_ : str) : option Z := Some 1.
Definition p256_key : str := byte 4 :: be_bytes 32 (Z.to_N (cv_gx p256)) ++ be_bytes 32 (Z.to_N (cv_gy p256)).
Definition p256_nonces (_ : N) : list Z := [1; 2].
Definition p256_double : point := Some (0x7cf27b188d034f7e8a52380304b51ac3c08969e277f21b35a60b48fc47669978, 0x07775510db8ed040293d9ac69f7430dbba7dade63ce982299e04b79d227873d1).
Lemma p256_one : multiple p256 (Some (cv_gx p256, cv_gy p256)) 1 (Some (cv_gx p256, cv_gy p256)).
Proof. apply (mult_S p256 _ 0 None); constructor. Qed.
Lemma p256_two : multiple p256 (Some (cv_gx p256, cv_gy p256)) 2 p256_double.
Proof.
  apply (mult_S p256 _ 1 _ _ p256_one). apply (add_with_sum p256 (proj1 (proj1 p256_bounds)) (fun x => x mod cv_p p256) (fun _ => eq_refl) 0xa249bcb3191802d3cb56fc75a8731f848e7b2caf080f3477a4e4d904a671af9d).
  vm_compute. reflexivity.
Qed.
Lemma p256_public : public_point p256 p256_key (Some (cv_gx p256, cv_gy p256)).
Proof. apply key_iff; [reflexivity|]. vm_compute. reflexivity. Qed.
Lemma p256_keys (sk : str) : ec_keys p256 p256_private sk p256_key 1 (Some (cv_gx p256, cv_gy p256)).
Proof. split; [reflexivity|]. split; [split; reflexivity|]. split; [exact p256_public|exact p256_one]. Qed.
Lemma p256_made (z k x y r : Z) : 0 < k < cv_n p256 -> multiple p256 (Some (cv_gx p256, cv_gy p256)) (Z.to_nat k) (Some (x, y)) -> x mod cv_n p256 = r -> 0 < r ->
  ~ (cv_n p256 | z + r * 1) -> exists s, made_with p256 1 z k r s.
Proof.
  intros K M X R N. pose proof (proj1 (proj2 p256_bounds)) as N2. assert (r < cv_n p256) by (subst r; apply Z.mod_pos_bound; lia).
  set (s := ((z + r * 1) * inverse (cv_n p256) k) mod cv_n p256). pose proof (Z.mod_pos_bound ((z + r * 1) * inverse (cv_n p256) k) (cv_n p256) ltac:(lia)) as B. fold s in B.
  assert (E : same (cv_n p256) (k * s) (z + r * 1)).
  { rewrite Z.mul_comm. apply (divide_by p256 (good_group p256 p256_good) k _ _ K). apply EcdsaGroup.same_mod. lia. }
  clearbody s. exists s. split; [exact K|]. split; [lia|]. split.
  - enough (s <> 0) by lia. intro F. rewrite F, Z.mul_0_r in E. apply N. apply same_zero. now apply same_sym.
  - split; [|exact E]. exists x, y. split; [exact M|]. subst r. apply same_sym, EcdsaGroup.same_mod. lia.
Qed.
Lemma p256_draws : enough_draws p256 1 p256_nonces.
Proof.
  intros rnd msg. set (z := hash_number msg). clearbody z. set (r1 := cv_gx p256 mod cv_n p256). set (r2 := 0x7cf27b188d034f7e8a52380304b51ac3c08969e277f21b35a60b48fc47669978 mod cv_n p256).
  assert (P1 : 0 < r1) by (vm_compute; reflexivity). assert (P2 : 0 < r2) by (vm_compute; reflexivity). assert (N12 : ~ (cv_n p256 | r2 - r1)).
  { intro D. apply Z.mod_divide in D; [|discriminate]. vm_compute in D. discriminate. }
  destruct (Zdivide_dec (cv_n p256) (z + r1 * 1)) as [D|D].
  - destruct (p256_made z 2 _ _ r2 ltac:(split; reflexivity) p256_two eq_refl P2) as (s & M); [|exists 2, r2, s; split; [cbn; tauto|exact M]].
    intro D'. apply N12. replace (r2 - r1) with (z + r2 * 1 - (z + r1 * 1)) by ring. now apply Z.divide_sub_r.
  - destruct (p256_made z 1 _ _ r1 ltac:(split; reflexivity) p256_one eq_refl P1 D) as (s & M). exists 1, r1, s. split; [cbn; tauto|exact M].
Qed.
