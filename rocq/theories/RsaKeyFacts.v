(** Lemmas about RSA private-key files. *)
From Verif Require Export SpecRsaKey RsaCrate EcdsaKeyFacts.
From Verif Require Import StrFacts KeyFacts ShaFacts RsaNum RsaFacts RsaPss MakeFacts EcdsaGroup EcdsaPrime.
Local Open Scope N_scope.

(** ** Files *)
Notation numbered := (fun x t => exists v, der_integer v x /\ tagged 2 v t).
Lemma positives_iff (k : nat) (s : str) (xs : list N) : N.of_nat (List.length s) < 65536 ->
  ring_positives k s = Some xs <-> List.length xs = k /\ exists numbers, Forall2 numbered xs numbers /\ s = List.concat numbers.
Proof.
  revert s xs. induction k as [|k IH]; intros s xs L; cbn [ring_positives].
  - split.
    + destruct s; [|discriminate]. intro H. injection H as <-. split; [reflexivity|]. exists []. now split.
    + intros [E (numbers & F & ->)]. destruct xs; [|discriminate]. inversion F; subst. reflexivity.
  - unfold tag_integer. split.
    + destruct (ring_tlv _ s) as [[v r]|] eqn:T; [|discriminate]. apply ring_tlv_iff in T; [|lia]. destruct T as (x & T & -> & _).
      destruct (der_positive v) as [n|] eqn:P; [|discriminate]. apply der_positive_iff in P. rewrite app_length in L.
      destruct (ring_positives k r) as [ys|] eqn:R; [|discriminate]. apply IH in R; [|lia]. destruct R as [Ly (numbers & F & ->)].
      intro H. injection H as <-. split; [cbn [List.length]; now f_equal|]. exists (x :: numbers). split; [|reflexivity]. constructor; [eauto|exact F].
    + intros [E (numbers & F & ->)]. destruct xs as [|n xs]; [discriminate|]. inversion F as [|n' t xs' ts (v & P & T) F']; subst.
      cbn [List.concat] in *. pose proof (tagged_longer _ _ _ T) as LT. rewrite app_length in L.
      rewrite (proj2 (ring_tlv_iff 2 v (List.concat ts) _ ltac:(lia))) by (exists t; split; [exact T|split; [reflexivity|lia]]).
      apply der_positive_iff in P. rewrite P. cbn [List.length] in E. injection E as E.
      rewrite (proj2 (IH (List.concat ts) xs ltac:(lia))); [reflexivity|]. split; [exact E|]. now exists ts.
Qed.
Lemma fields_numbers (s : str) (xs : list N) : rsa_fields s = Some xs <-> short_file s /\ List.length xs = 8%nat /\
  exists version numbers, tagged 2 [byte 0] version /\ Forall2 numbered xs numbers /\ tagged 48 (version ++ List.concat numbers) s.
Proof.
  unfold rsa_fields, tag_sequence. split.
  - destruct (ring_only _ s) as [body|] eqn:D; [|discriminate]. cbn [andThen]. apply ring_only_iff in D; [|lia]. destruct D as [D L].
    destruct (ring_version 0 body) as [r|] eqn:V; [|discriminate]. cbn [andThen]. apply ring_version_iff in V. destruct V as (version & V & ->).
    intro P. rewrite app_length in L. apply positives_iff in P; [|lia]. destruct P as [Lx (numbers & F & ->)].
    split; [apply (short_small 48 _ _ D); rewrite app_length; exact L|]. split; [exact Lx|]. eauto.
  - intros (F & Lx & version & numbers & V & P & D). pose proof (proj1 (short_small 48 _ _ D) F) as L.
    rewrite (proj2 (ring_only_iff 48 _ s ltac:(lia)) (conj D L)). cbn [andThen].
    rewrite (proj2 (ring_version_iff 0 _ (List.concat numbers)) (ex_intro _ version (conj V eq_refl))). cbn [andThen].
    rewrite app_length in L. apply positives_iff; [lia|]. eauto.
Qed.
Lemma fields_key (s : str) (n e d p q dp dq qinv : N) : rsa_fields s = Some [n; e; d; p; q; dp; dq; qinv] <-> short_file s /\ rsa_private_key n e d p q dp dq qinv s.
Proof. rewrite fields_numbers. unfold rsa_private_key. split; [intros (F & _ & H)|intros (F & H)]; auto. Qed.
Definition rsa_id : str := map ascii_of_N [6; 9; 42; 134; 72; 134; 247; 13; 1; 1; 1].
Lemma rsa_id_is (x : str) : tagged 6 oid_rsa x <-> x = rsa_id.
Proof.
  assert (T : tagged 6 oid_rsa rsa_id) by (exists [ascii_of_N 9]; split; [constructor; reflexivity|reflexivity]).
  split; [intro H; apply (tagged_same _ _ _ _ H T); reflexivity|now intros ->].
Qed.
Lemma null_is (x : str) : tagged 5 [] x <-> x = map ascii_of_N [5; 0].
Proof. now apply tagged_short. Qed.
Lemma rsa_wrapped (key s : str) : rsa_pkcs8 key s <-> wrapped_key rsa_algorithm key s.
Proof.
  split.
  - intros (version & rsa & null & alg & k & attributes & V & O & Nl & A & K & R & D). apply rsa_id_is in O. apply null_is in Nl. subst rsa null.
    exists version, alg, k, attributes. auto.
  - intros (version & alg & k & attributes & V & A & K & R & D). exists version, rsa_id, (map ascii_of_N [5; 0]), alg, k, attributes.
    split; [exact V|]. split; [now apply rsa_id_is|]. split; [now apply null_is|]. auto.
Qed.

(** ** The numbers *)
Lemma size_iff (n b : N) : has_bits n b <-> n <> 0 /\ N.size n = b.
Proof.
  split.
  - intro H. assert (Z : n <> 0) by (now apply (has_bits_pos n b)). split; [exact Z|]. apply (bits_unique n); [now apply size_bits|exact H].
  - intros [Z <-]. now apply size_bits.
Qed.
Lemma half_iff (n b : N) : n <> 0 -> 1 <= b -> (half_up (N.size n) = b <-> has_bits n (2 * b) \/ has_bits n (2 * b - 1)).
Proof.
  intros Z B. rewrite !size_iff. unfold half_up. pose proof (N.div_mod (N.size n) 2 ltac:(lia)). pose proof (N.mod_lt (N.size n) 2 ltac:(lia)).
  split; [intro E|intros [[_ E]|[_ E]]]; [|rewrite E in *; lia|rewrite E in *; lia].
  assert (N.size n = 2 * b \/ N.size n = 2 * b - 1) as [E'|E'] by lia; auto.
Qed.
Lemma size_over (d b : N) : b < N.size d <-> 2 ^ b <= d.
Proof.
  destruct (N.eq_dec d 0) as [->|Z].
  { split; [cbn; lia|]. assert (2 ^ b <> 0) by (apply N.pow_nonzero; lia). lia. }
  pose proof (size_bits d Z) as [S [L U]]. split; intro H.
  - apply (N.le_trans _ (2 ^ (N.size d - 1))); [apply N.pow_le_mono_r; lia|exact L].
  - apply (N.pow_lt_mono_r_iff 2); lia.
Qed.
Lemma private_limits_iff (n e : N) : ring_private_limits n e = true <-> N.Odd n /\ 256 ^ 255 <= n < 256 ^ 512 /\ N.Odd e /\ 65537 <= e < 2 ^ 33.
Proof.
  unfold ring_private_limits. rewrite !andb_true_iff, !N.odd_spec, N.leb_le, Nat.leb_le, !N.leb_le.
  destruct (N.eq_dec n 0) as [->|Z].
  { split; [intros (((((O & _) & _) & _) & _) & _)|intros (O & _)]; destruct O as [x O]; lia. }
  pose proof (size_bits n Z) as B. pose proof (length_bytes_of n Z) as [K [L U]]. set (k := byte_length (N.size n)) in *.
  assert (A : (256 <= k)%nat <-> 256 ^ 255 <= n).
  { split; intro H.
    - apply (N.le_trans _ (256 ^ (N.of_nat k - 1))); [apply N.pow_le_mono_r; [discriminate|]; clear - H; lia|exact L].
    - assert (X : 255 < N.of_nat k) by (apply (N.pow_lt_mono_r_iff 256); [reflexivity|]; exact (N.le_lt_trans _ _ _ H U)). clear - X. lia. }
  assert (C : N.size n <= 4096 <-> n < 256 ^ 512).
  { replace (256 ^ 512) with (2 ^ 4096) by (change 256 with (2 ^ 8); rewrite <- N.pow_mul_r; reflexivity). destruct B as [B1 [B2 B3]]. split; intro H.
    - apply (N.lt_le_trans _ (2 ^ N.size n)); [exact B3|]. apply N.pow_le_mono_r; [discriminate|exact H].
    - assert (X : N.size n - 1 < 4096) by (apply (N.pow_lt_mono_r_iff 2); [reflexivity|]; exact (N.le_lt_trans _ _ _ B2 H)).
      clear - X B1. lia. }
  rewrite A, C. clear. generalize (256 ^ 255), (256 ^ 512). intros lo hi. change (2 ^ 33) with (8589934591 + 1). split; [intros (((((? & ?) & ?) & ?) & ?) & ?)|intros (? & [? ?] & ? & ? & ?)]; repeat split; auto; lia.
Qed.
(** The checks with the factors in order, as one statement. *)
Definition checked_numbers (n e d p q dp dq : N) : Prop :=
  N.Odd n /\ 256 ^ 255 <= n < 256 ^ 512 /\ N.Odd e /\ 65537 <= e < 2 ^ 33
  /\ (n | p * q)
  /\ (exists b, (512 | b) /\ has_bits p b /\ has_bits q b /\ (has_bits n (2 * b) \/ has_bits n (2 * b - 1)) /\ 2 ^ b <= d)
  /\ d < n /\ N.Odd d
  /\ N.Odd p /\ N.Odd q /\ dp < p /\ dq < q /\ N.Odd dp /\ N.Odd dq.
Lemma prime_ok_iff (p dp : N) : prime_ok p dp = true <-> N.Odd p /\ N.size p mod 512 = 0 /\ dp < p /\ N.Odd dp.
Proof. unfold prime_ok. rewrite !andb_true_iff, !N.odd_spec, N.eqb_eq, N.ltb_lt. tauto. Qed.
Lemma odd_nonzero (n : N) : N.Odd n -> n <> 0.
Proof. intros [x E]. lia. Qed.
Lemma below_modulus (n p b : N) : (512 | b) -> has_bits p b -> has_bits n (2 * b) \/ has_bits n (2 * b - 1) -> p < n.
Proof.
  intros [k Db] [B [_ U]] H. apply (N.lt_le_trans _ (2 ^ b)); [exact U|]. apply (N.le_trans _ (2 ^ (2 * b - 1 - 1))).
  - apply N.pow_le_mono_r; lia.
  - destruct H as [[_ [H _]]|[_ [H _]]]; [|exact H]. apply (N.le_trans _ (2 ^ (2 * b - 1))); [|exact H]. apply N.pow_le_mono_r; lia.
Qed.
Lemma checked_iff (n e d p q dp dq qinv : N) (k : rsa_private) : rsa_checked n e d p q dp dq qinv = Some k <->
  k = RsaPrivate n e p q dp dq qinv /\ checked_numbers n e d p q dp dq /\ qinv < p /\ (qinv * q) mod p = 1.
Proof.
  unfold rsa_checked, checked_numbers. cbv zeta. set (half := half_up (N.size n)). split.
  - destruct (_ && _) eqn:C; [|discriminate]. intro H. injection H as <-. split; [reflexivity|].
    rewrite !andb_true_iff, private_limits_iff, !prime_ok_iff, !N.eqb_eq, !N.ltb_lt, N.odd_spec in C.
    destruct C as ((((((((((((L & Sp) & Sq) & Qn) & Pn) & M) & D) & Dn) & Od) & P) & Q) & I) & J).
    destruct L as (O & R & Oe & Re). destruct P as (Op & B & Lp & Odp). destruct Q as (Oq & _ & Lq & Odq).
    pose proof (odd_nonzero n O) as Z. pose proof (odd_nonzero p Op) as Zp. pose proof (odd_nonzero q Oq) as Zq.
    split; [|now split]. split; [exact O|]. split; [exact R|]. split; [exact Oe|]. split; [exact Re|]. split; [now apply (divide_mod n)|].
    split; [|tauto]. exists (N.size p). split; [apply (divide_mod 512); [discriminate|exact B]|]. split; [now apply size_bits|].
    split; [apply size_iff; split; [exact Zq|congruence]|].
    assert (P1 : 1 <= N.size p) by apply (size_bits p Zp). split; [apply half_iff; [exact Z|exact P1|]; now rewrite Sp|]. apply size_over. now rewrite Sp.
  - intros (-> & (O & R & Oe & Re & M & (b & Db & Bp & Bq & Bn & D) & Dn & Od & Op & Oq & Lp & Lq & Odp & Odq) & I & J).
    pose proof (odd_nonzero n O) as Z. assert (P1 : 1 <= b) by apply Bp.
    assert (E : half = b) by (apply half_iff; assumption). pose proof (below_modulus n p b Db Bp Bn) as Pn. pose proof (below_modulus n q b Db Bq Bn) as Qn.
    apply size_iff in Bp, Bq. destruct Bp as [_ Bp], Bq as [_ Bq]. apply (divide_mod 512) in Db; [|discriminate]. apply (divide_mod n) in M; [|exact Z].
    match goal with |- (if ?c then _ else _) = _ => assert (C : c = true) end; [|now rewrite C].
    rewrite !andb_true_iff, private_limits_iff, !prime_ok_iff, !N.eqb_eq, !N.ltb_lt, N.odd_spec, E, Bp, Bq. rewrite size_over. tauto.
Qed.
Lemma checked_sym (n e d p q dp dq : N) : checked_numbers n e d p q dp dq <-> checked_numbers n e d q p dq dp.
Proof.
  assert (X : forall p q dp dq, checked_numbers n e d p q dp dq -> checked_numbers n e d q p dq dp).
  { unfold checked_numbers. clear. intros p q dp dq (O & R & Oe & Re & M & (b & Db & Bp & Bq & Bn & D) & Dn & Od & Op & Oq & Lp & Lq & Odp & Odq).
    rewrite (N.mul_comm q p). split; [exact O|]. split; [exact R|]. split; [exact Oe|]. split; [exact Re|]. split; [exact M|]. split; [exists b; auto|]. tauto. }
  split; apply X.
Qed.
Lemma private_split (n e d p q dp dq qinv : N) : ring_private n e d p q dp dq qinv <->
  checked_numbers n e d p q dp dq /\ (q < p -> qinv < p /\ (qinv * q) mod p = 1) /\ (p <= q -> p ^ (q - 1) mod q = 1).
Proof. unfold ring_private, checked_numbers. tauto. Qed.
Lemma pow_less (p q : N) : q <> 0 -> q <> 1 -> p ^ (q - 1) = p ^ (q - 2) * p.
Proof. intros Z O. rewrite N.mul_comm, <- N.pow_succ_r'. f_equal. lia. Qed.
(** What a read key is: the numbers of the file, with the larger factor first. *)
Definition key_of (n e p q dp dq qinv : N) : rsa_private :=
  if q <? p then RsaPrivate n e p q dp dq qinv else RsaPrivate n e q p dq dp (pow_mod p (q - 2) q).
Lemma components_iff (n e d p q dp dq qinv : N) (k : rsa_private) : rsa_components n e d p q dp dq qinv = Some k <->
  ring_private n e d p q dp dq qinv /\ k = key_of n e p q dp dq qinv.
Proof.
  unfold rsa_components, key_of. rewrite private_split. destruct (N.ltb_spec q p) as [L|L].
  - rewrite checked_iff. split.
    + intros (-> & C & I & J). split; [|reflexivity]. split; [exact C|]. split; [auto|]. intro. lia.
    + intros [(C & I & _) ->]. split; [reflexivity|]. split; [exact C|]. now apply I.
  - rewrite checked_iff, (checked_sym n e d q p dq dp). split.
    + intros (-> & C & I & J). split; [|reflexivity]. split; [exact C|]. split; [intro; lia|]. intros _.
      pose proof C as (_ & _ & _ & _ & _ & (b & Db & Bp & Bq & _) & _ & _ & Op & Oq & _). pose proof (odd_nonzero q Oq) as Zq.
      rewrite pow_mod_eq, N.mul_mod_idemp_l in J by exact Zq. rewrite (pow_less p q); [exact J|exact Zq|]. intros ->. rewrite N.mod_1_r in J. discriminate.
    + intros [(C & _ & I) ->]. specialize (I L). split; [reflexivity|]. split; [exact C|].
      pose proof C as (_ & _ & _ & _ & _ & (b & Db & Bp & Bq & _) & _ & _ & Op & Oq & _). pose proof (odd_nonzero q Oq) as Zq.
      rewrite pow_mod_eq by exact Zq. split; [now apply N.mod_lt|]. rewrite N.mul_mod_idemp_l by exact Zq. rewrite <- (pow_less p q); [exact I|exact Zq|]. intros ->. rewrite N.mod_1_r in I. discriminate.
Qed.
Lemma private_iff (b : str) (k : rsa_private) : ring_rsa_private b = Some k <-> short_file b /\
  exists n e d p q dp dq qinv, rsa_private_key n e d p q dp dq qinv b /\ ring_private n e d p q dp dq qinv /\ k = key_of n e p q dp dq qinv.
Proof.
  unfold ring_rsa_private. split.
  - destruct (rsa_fields b) as [xs|] eqn:F; [|discriminate]. intro H. pose proof F as F'. apply fields_numbers in F'. destruct F' as (S & L & _).
    destruct xs as [|n [|e [|d [|p [|q [|dp [|dq [|qinv [|]]]]]]]]]; try discriminate. apply fields_key in F. apply components_iff in H.
    split; [exact S|]. exists n, e, d, p, q, dp, dq, qinv. split; [apply F|exact H].
  - intros (S & n & e & d & p & q & dp & dq & qinv & F & H). rewrite (proj2 (fields_key b n e d p q dp dq qinv) (conj S F)). now apply components_iff.
Qed.
Lemma numbers_unique (b : str) (n e d p q dp dq qinv n' e' d' p' q' dp' dq' qinv' : N) : short_file b ->
  rsa_private_key n e d p q dp dq qinv b -> rsa_private_key n' e' d' p' q' dp' dq' qinv' b ->
  [n; e; d; p; q; dp; dq; qinv] = [n'; e'; d'; p'; q'; dp'; dq'; qinv'].
Proof.
  intros S F F'. assert (X : Some [n; e; d; p; q; dp; dq; qinv] = Some [n'; e'; d'; p'; q'; dp'; dq'; qinv']).
  { rewrite <- (proj2 (fields_key b _ _ _ _ _ _ _ _) (conj S F)). now apply fields_key. }
  now injection X as -> -> -> -> -> -> -> ->.
Qed.

(** ** The powers *)
(** What a read key satisfies. *)
Definition sound_key (k : rsa_private) : Prop :=
  1 < rp_n k /\ (rp_n k | rp_p k * rp_q k) /\ rp_q k < rp_p k /\ 0 < rp_q k /\ (rp_qinv k * rp_q k) mod rp_p k = 1
  /\ ring_takes (rp_n k) (rp_e k) /\ 2 ^ 1033 <= rp_n k.
Lemma read_sound (n e d p q dp dq qinv : N) : ring_private n e d p q dp dq qinv -> sound_key (key_of n e p q dp dq qinv).
Proof.
  intro H. apply private_split in H. destruct H as [C [I J]]. pose proof C as (O & R & Oe & Re & M & (b & Db & Bp & Bq & Bn & D) & Dn & Od & Op & Oq & Lp & Lq & Odp & Odq).
  assert (X : 2 ^ 1033 <= n). { apply (N.le_trans _ (256 ^ 255)); [|apply R]. change 256 with (2 ^ 8). rewrite <- N.pow_mul_r. apply N.pow_le_mono_r; [discriminate|]. now vm_compute. }
  assert (X1 : 1 < n). { apply (N.lt_le_trans _ (2 ^ 1033)); [|exact X]. change 1 with (2 ^ 0) at 1. apply N.pow_lt_mono_r; reflexivity. }
  assert (T : ring_takes n e). { split; [exact O|]. split; [split; [apply R|]|].
    - apply (N.lt_trans _ (256 ^ 512)); [apply R|]. apply N.pow_lt_mono_r; reflexivity.
    - split; [exact Oe|]. split; [apply (N.le_trans _ 65537); [discriminate|apply Re]|apply Re]. }
  pose proof (odd_nonzero p Op) as Zp. pose proof (odd_nonzero q Oq) as Zq. clear C D R Re Bp Bq Bn.
  unfold sound_key, key_of. destruct (N.ltb_spec q p) as [L|L]; cbn [rp_n rp_e rp_p rp_q rp_qinv].
  - specialize (I L). split; [exact X1|]. split; [exact M|]. split; [exact L|]. split; [now apply N.neq_0_lt_0|]. split; [apply I|]. now split.
  - specialize (J L). assert (Q1 : q <> 1) by (intros ->; rewrite N.mod_1_r in J; discriminate).
    split; [exact X1|]. split; [now rewrite N.mul_comm|]. split.
    + apply N.le_neq. split; [exact L|]. intros ->. rewrite (pow_less q q Zq Q1), N.mod_mul in J by exact Zq. discriminate.
    + split; [now apply N.neq_0_lt_0|]. split; [|now split]. rewrite pow_mod_eq, N.mul_mod_idemp_l by exact Zq. now rewrite <- (pow_less p q Zq Q1).
Qed.
Lemma crt_checked (k : rsa_private) (c m : N) : rp_n k <> 0 -> crt_power k c = Some m -> m < rp_n k /\ m ^ rp_e k mod rp_n k = c.
Proof.
  intro Z. unfold crt_power. cbv zeta. match goal with |- (if _ =? _ then Some ?x else _) = _ -> _ => set (y := x) end.
  destruct (N.eqb_spec (pow_mod y (rp_e k) (rp_n k)) c) as [E|E]; [|discriminate]. intro H. injection H as <-.
  split; [now apply N.mod_lt|]. now rewrite <- pow_mod_eq.
Qed.
(** In Z, for the ring tactic. *)
Lemma mod_same (n x y : N) : n <> 0 -> x mod n = y mod n <-> same (Z.of_N n) (Z.of_N x) (Z.of_N y).
Proof.
  intro Z. rewrite same_iff by lia. rewrite <- !N2Z.inj_mod. split; [now intros ->|apply N2Z.inj].
Qed.
Lemma both_factors (n p q x y : N) : (n | p * q) -> N.gcd p q = 1 -> y <= x -> (p | x - y) -> (q | x - y) -> (n | x - y).
Proof.
  intros M G L [a A] D. apply (N.divide_trans _ (p * q)); [exact M|]. rewrite A in D. rewrite N.mul_comm in D. apply N.gauss in D; [|now rewrite N.gcd_comm].
  destruct D as [t ->]. exists t. rewrite A. lia.
Qed.
Lemma inverse_coprime (p q i : N) : p <> 0 -> (i * q) mod p = 1 -> N.gcd p q = 1.
Proof.
  intros Z E. pose proof (N.div_mod (i * q) p Z) as D. rewrite E in D. set (g := N.gcd p q).
  apply N.divide_1_r. apply (N.divide_add_cancel_r _ (p * (i * q / p))).
  - apply N.divide_mul_l, N.gcd_divide_l.
  - rewrite <- D. apply N.divide_mul_r, N.gcd_divide_r.
Qed.
Lemma pow_same (n x y e : N) : n <> 0 -> x mod n = y mod n -> x ^ e mod n = y ^ e mod n.
Proof. intros Z E. apply mod_same; [exact Z|]. rewrite !N2Z.inj_pow. apply same_pow; [lia|]. now apply mod_same. Qed.
Lemma crt_value (p q i a b : N) : q < p -> 0 < q -> (i * q) mod p = 1 -> a < p -> b < q ->
  let m := b + q * ((i * ((a + p - b) mod p)) mod p) in m mod p = a mod p /\ m mod q = b mod q.
Proof.
  intros L Q E A B m. assert (Z : p <> 0) by lia. split.
  - apply mod_same; [exact Z|]. unfold m. rewrite N2Z.inj_add, N2Z.inj_mul.
    assert (H : same (Z.of_N p) (Z.of_N ((i * ((a + p - b) mod p)) mod p)) (Z.of_N i * (Z.of_N a - Z.of_N b))).
    { rewrite N2Z.inj_mod. apply (same_trans _ _ (Z.of_N (i * ((a + p - b) mod p)))); [apply EcdsaGroup.same_mod; lia|]. rewrite N2Z.inj_mul. apply same_mul; [apply same_refl|].
      rewrite N2Z.inj_mod. apply (same_trans _ _ (Z.of_N (a + p - b))); [apply EcdsaGroup.same_mod; lia|]. exists 1%Z. lia. }
    assert (I : same (Z.of_N p) (Z.of_N q * Z.of_N i) 1).
    { rewrite <- N2Z.inj_mul, (N.mul_comm q i). change 1%Z with (Z.of_N 1). apply mod_same; [exact Z|]. rewrite E. symmetry. apply N.mod_small. lia. }
    pose proof (same_mul _ _ _ _ _ (same_refl (Z.of_N p) (Z.of_N q)) H) as X. pose proof (same_mul _ _ _ _ _ I (same_refl (Z.of_N p) (Z.of_N a - Z.of_N b))) as Y.
    apply (same_trans _ _ (Z.of_N b + (Z.of_N q * (Z.of_N i * (Z.of_N a - Z.of_N b))))%Z); [apply same_add; [apply same_refl|exact X]|].
    apply (same_trans _ _ (Z.of_N b + (1 * (Z.of_N a - Z.of_N b)))%Z); [|exists 0%Z; lia]. apply same_add; [apply same_refl|].
    replace (Z.of_N q * (Z.of_N i * (Z.of_N a - Z.of_N b)))%Z with (Z.of_N q * Z.of_N i * (Z.of_N a - Z.of_N b))%Z by ring. exact Y.
  - unfold m. rewrite N.mul_comm. apply N.mod_add. lia.
Qed.
Lemma crt_works (k : rsa_private) (c : N) : sound_key k -> rsa_exponents (rp_e k) (rp_p k) (rp_q k) (rp_dp k) (rp_dq k) -> c < rp_n k -> crt_power k c <> None.
Proof.
  destruct k as [n e p q dp dq i]. unfold sound_key, rsa_exponents, crt_power. cbn [rp_n rp_e rp_p rp_q rp_dp rp_dq rp_qinv]. cbv zeta.
  intros (N1 & M & L & Q & I & _ & _) [Ep Eq] C. assert (Z : n <> 0) by (clear - N1; lia). assert (Zp : p <> 0) by (clear - L; lia). assert (Zq : q <> 0) by (clear - Q; lia).
  rewrite !pow_mod_eq by assumption. set (a := c ^ dp mod p). set (b := c ^ dq mod q).
  assert (A : a < p) by now apply N.mod_lt. assert (B : b < q) by now apply N.mod_lt.
  destruct (crt_value p q i a b L Q I A B) as [Mp Mq]. set (h := (i * ((a + p - b) mod p)) mod p) in *.
  rewrite N.add_mod_idemp_r by exact Z. set (m := b + q * h) in *.
  match goal with |- (if ?x =? c then _ else _) <> None => assert (E : x = c) end; [|rewrite E, N.eqb_refl; discriminate].
  rewrite (pow_same n (m mod n) m e Z) by now apply N.mod_mod.
  assert (F : forall r x d, r <> 0 -> rsa_numbers r e d -> x mod r = (c ^ d mod r) mod r -> x ^ e mod r = c mod r).
  { intros r x d Zr K X. rewrite N.mod_mod in X by exact Zr. rewrite (pow_same r x (c ^ d) e Zr X), <- N.pow_mul_r, (N.mul_comm d e). now apply rsa_inverse. }
  pose proof (F p m dp Zp Ep Mp) as Fp. pose proof (F q m dq Zq Eq Mq) as Fq.
  pose proof (inverse_coprime p q i Zp I) as G.
  transitivity (c mod n); [|now apply N.mod_small]. destruct (N.le_ge_cases c (m ^ e)) as [Lc|Lc].
  - apply RsaNum.same_mod; [exact Z|exact Lc|]. apply (both_factors n p q); try assumption; now apply RsaNum.same_mod.
  - symmetry. apply RsaNum.same_mod; [exact Z|exact Lc|]. apply (both_factors n p q); try assumption; apply RsaNum.same_mod; congruence.
Qed.

(** What a result says modulo a divisor of the first factor. *)
Lemma crt_mod (k : rsa_private) (c m r : N) : sound_key k -> r <> 0 -> (r | rp_p k) -> (r | rp_n k) -> crt_power k c = Some m ->
  c ^ (rp_dp k * rp_e k) mod r = c mod r.
Proof.
  destruct k as [n e p q dp dq i]. unfold sound_key, crt_power. cbn [rp_n rp_e rp_p rp_q rp_dp rp_dq rp_qinv]. cbv zeta.
  intros (N1 & M & L & Q & I & _ & _) Zr Rp Rn. assert (Z : n <> 0) by (clear - N1; lia). assert (Zp : p <> 0) by (clear - L; lia). assert (Zq : q <> 0) by (clear - Q; lia).
  rewrite !pow_mod_eq by assumption. set (a := c ^ dp mod p). set (b := c ^ dq mod q).
  assert (A : a < p) by now apply N.mod_lt. assert (B : b < q) by now apply N.mod_lt.
  destruct (crt_value p q i a b L Q I A B) as [Mp _]. set (h := (i * ((a + p - b) mod p)) mod p) in *.
  rewrite N.add_mod_idemp_r by exact Z. set (x := b + q * h) in *. rewrite (pow_same n (x mod n) x e Z) by now apply N.mod_mod.
  destruct (N.eqb_spec (x ^ e mod n) c) as [E|E]; [|discriminate]. intros _.
  assert (W : forall s y, s <> 0 -> (r | s) -> (y mod s) mod r = y mod r).
  { intros s y Zs [t ->]. rewrite (N.mul_comm t r), N.mod_mul_r by (try exact Zr; intros ->; now apply Zs). rewrite N.mul_comm, N.mod_add by exact Zr. now apply N.mod_mod. }
  rewrite <- E at 2. rewrite (W n _ Z Rn), N.pow_mul_r. apply pow_same; [exact Zr|].
  rewrite <- (W p x Zp Rp), Mp, (W p a Zp Rp). unfold a. now rewrite (W p _ Zp Rp).
Qed.

(** ** Signing *)
Lemma encoded_pkcs1 (h : hashing) (n rnd : N) (msg : str) : rsa_encoded (pkcs1_with h) n rnd msg = emsa_pkcs1 (hf_of h) (byte_length (N.size n)) msg.
Proof. now destruct h. Qed.
Lemma encoded_pss (h : hashing) (n rnd : N) (msg : str) :
  rsa_encoded (pss_with h) n rnd msg = emsa_pss (hf_of h) (N.size n - 1) (be_bytes (digest_size h) rnd) msg.
Proof. now destruct h. Qed.
Lemma tag_opens (k : rsa_private) (em : str) (m : N) : rp_n k <> 0 -> crt_power k (be_value em) = Some m ->
  opens (rp_n k) (rp_e k) (be_bytes (byte_length (N.size (rp_n k))) m) em.
Proof.
  intros Z H. apply crt_checked in H; [|exact Z]. rewrite be_value_spec in H. destruct H as [L E]. unfold opens. rewrite be_bytes_length.
  pose proof (length_bytes_of _ Z) as B. split; [exact B|]. rewrite big_endian_of; [now split|]. apply (N.lt_trans _ (rp_n k)); [exact L|]. apply B.
Qed.
Lemma signed_pkcs1 (h : hashing) (key : str) (k : rsa_private) (rnd : N) (msg tag : str) : ring_rsa_private key = Some k -> rp_n k <> 0 ->
  ring_rsa_sign (pkcs1_with h) key rnd msg = Some tag -> pkcs1_signature h (rp_n k) (rp_e k) msg tag.
Proof.
  intros K Z. unfold ring_rsa_sign. rewrite K. cbn [andThen]. rewrite encoded_pkcs1. destruct (emsa_pkcs1 _ _ _) as [em|] eqn:E; [|discriminate]. cbn [andThen].
  destruct (crt_power k (be_value em)) as [m|] eqn:C; [|discriminate]. intro H. injection H as <-. apply pkcs1_block_iff in E. exists em.
  rewrite be_bytes_length. split; [exact E|]. now apply tag_opens.
Qed.
Lemma signed_pss (h : hashing) (key : str) (k : rsa_private) (rnd : N) (msg tag : str) : ring_rsa_private key = Some k -> rp_n k <> 0 ->
  ring_rsa_sign (pss_with h) key rnd msg = Some tag -> pss_signature h (rp_n k) (rp_e k) msg (be_bytes (digest_size h) rnd) tag.
Proof.
  intros K Z. unfold ring_rsa_sign. rewrite K. cbn [andThen]. rewrite encoded_pss. destruct (emsa_pss _ _ _ _) as [em|] eqn:E; [|discriminate]. cbn [andThen].
  destruct (crt_power k (be_value em)) as [m|] eqn:C; [|discriminate]. intro H. injection H as <-. 
  exists (N.size (rp_n k)), em. split; [now apply size_bits|]. split; [apply pss_block_iff; split; [exact E|apply be_bytes_length]|]. now apply tag_opens.
Qed.
Lemma sign_works (s : scheme) (key : str) (k : rsa_private) (rnd : N) (msg : str) : rsa_scheme s -> ring_rsa_private key = Some k -> sound_key k ->
  rsa_exponents (rp_e k) (rp_p k) (rp_q k) (rp_dp k) (rp_dq k) -> ring_rsa_sign s key rnd msg <> None.
Proof.
  intros R K S X. pose proof S as (N1 & _ & _ & _ & _ & T & Big). assert (Z : rp_n k <> 0) by (clear - N1; lia).
  unfold ring_rsa_sign. rewrite K. cbn [andThen].
  assert (E : exists em, rsa_encoded s (rp_n k) rnd msg = Some em /\ big_endian em < rp_n k).
  { destruct (scheme_cases s R) as [h [-> | ->]].
    - rewrite encoded_pkcs1. assert (Rm : room (pkcs1_with h) (rp_n k)).
      { assert (Y : 256 ^ 93 <= rp_n k) by (apply (N.le_trans _ (256 ^ 255)); [apply N.pow_le_mono_r; [discriminate|]; now vm_compute|apply T]).
        destruct h; [|exact Y]. apply (N.le_trans _ (256 ^ 93)); [apply N.pow_le_mono_r; [discriminate|]; now vm_compute|exact Y]. }
      destruct (pkcs1_room h _ Rm) as (j & B & L). rewrite (bytes_length _ _ B). destruct (pkcs1_block_exists h msg j L) as [em P]. exists em.
      split; [now apply pkcs1_block_iff|]. exact (pkcs1_block_small h msg em _ j B P).
    - rewrite encoded_pss. assert (Rm : room (pss_with h) (rp_n k)).
      { destruct h; [|exact Big]. apply (N.le_trans _ (2 ^ 1033)); [apply N.pow_le_mono_r; [discriminate|]; now vm_compute|exact Big]. }
      destruct (pss_room h _ Rm) as (b & B & L). assert (Eb : b = N.size (rp_n k)) by (apply (bits_unique (rp_n k)); [exact B|now apply size_bits]).
      destruct (byte_length_spec (b - 1)) as (z & Ez & Lz). assert (Bp : 1 <= b) by apply B.
      destruct (pss_block_exists h msg (be_bytes (digest_size h) rnd) (b - 1) (be_bytes_length _ _)) as [em P]; [clear - Ez Lz Bp L; lia|].
      exists em. rewrite <- Eb. split; [now apply (pss_block_iff h msg _ em (b - 1))|]. exact (pss_block_small h msg _ em _ b B P). }
  destruct E as (em & E & L). rewrite E. cbn [andThen]. pose proof (crt_works k (big_endian em) S X L) as C. rewrite be_value_spec.
  destruct (crt_power k (big_endian em)); [discriminate|contradiction].
Qed.

(** ** Keys as other programs make them *)
Lemma odd_factors (x y k : N) : x * y = 1 + 2 * k -> N.Odd x /\ N.Odd y.
Proof.
  intro E. assert (O : N.odd (x * y) = true) by (apply N.odd_spec; exists k; lia). rewrite N.odd_mul in O. apply andb_prop in O.
  split; apply N.odd_spec; apply O.
Qed.
Lemma prime_odd (p : N) : is_prime p -> p <> 2 -> exists j, p - 1 = 2 * j /\ 0 < j.
Proof.
  intros [L H] E. destruct (N.Even_or_Odd p) as [[x X]|[x X]].
  - exfalso. destruct (H 2) as [F|F]; [exists x; lia|lia|lia].
  - exists x. split; lia.
Qed.
Lemma exponent_for (p e d : N) : is_prime p -> p <> 2 -> (exists k, e * d = 1 + k * (p - 1)) ->
  N.Odd e /\ N.Odd d /\ N.Odd (d mod (p - 1)) /\ d mod (p - 1) < p /\ rsa_numbers p e (d mod (p - 1)).
Proof.
  intros P P2 [k K]. destruct (prime_odd p P P2) as (j & J & J0). destruct (odd_factors e d (k * j)) as [Oe Od]; [rewrite K, J; lia|].
  split; [exact Oe|]. split; [exact Od|]. pose proof (N.div_mod d (p - 1) ltac:(lia)) as D. pose proof (N.mod_lt d (p - 1) ltac:(lia)) as M.
  set (t := d / (p - 1)) in *. set (dp := d mod (p - 1)) in *.
  assert (Odp : N.Odd dp).
  { destruct (N.Even_or_Odd dp) as [[x X]|X]; [|exact X]. exfalso. destruct Od as [y Y]. rewrite J in D. nia. }
  split; [exact Odp|]. split; [lia|]. exists [p]. split; [constructor; [easy|constructor]|]. split; [constructor; [exact P|constructor]|]. split; [cbn; lia|]. constructor; [|constructor].
  exists (k - e * t). assert (E : e * dp + e * t * (p - 1) = 1 + k * (p - 1)) by (rewrite <- K; nia).
  assert (W : e * dp <> 0) by (apply N.neq_mul_0; split; now apply odd_nonzero).
  assert (U : 2 <= p - 1) by (clear - J J0; lia). clear - E W U. set (u := p - 1) in *. set (v := e * t) in *. set (w := e * dp) in *. clearbody u v w.
  assert (V : v <= k). { destruct (N.le_gt_cases v k) as [V|V]; [exact V|exfalso]. assert (k * u + u <= v * u) by nia. lia. }
  rewrite N.mul_sub_distr_r. assert (v * u <= k * u) by (apply N.mul_le_mono_r; exact V). lia.
Qed.
Lemma standard_numbers (n e d p q dp dq qinv : N) : standard_key n e d p q dp dq qinv -> rsa_numbers n e d.
Proof.
  intros (P & Q & D & -> & Kp & Kq & _). exists [p; q]. split; [constructor; [intros [E|[]]; now apply D|constructor; [easy|constructor]]|].
  split; [constructor; [exact P|constructor; [exact Q|constructor]]|]. split; [cbn; lia|]. constructor; [exact Kp|constructor; [exact Kq|constructor]].
Qed.
Lemma prime_pow (p q : N) : is_prime p -> is_prime q -> p <> q -> p ^ (q - 1) mod q = 1.
Proof.
  intros P Q D. rewrite (fermat q p Q); [apply N.mod_small, Q|]. intros H. apply P in H. destruct H as [H|H]; [|congruence]. destruct Q. lia.
Qed.
Lemma bits_product (p q b : N) : 1 <= b -> has_bits p b -> has_bits q b -> has_bits (p * q) (2 * b) \/ has_bits (p * q) (2 * b - 1).
Proof.
  intros B [_ [Lp Up]] [_ [Lq Uq]]. assert (E : 2 ^ b = 2 * 2 ^ (b - 1)) by (rewrite <- N.pow_succ_r'; f_equal; lia).
  assert (E2 : 2 ^ (2 * b) = 2 ^ b * 2 ^ b) by (rewrite <- N.pow_add_r; f_equal; lia).
  assert (E1 : 2 ^ (2 * b - 1 - 1) = 2 ^ (b - 1) * 2 ^ (b - 1)) by (rewrite <- N.pow_add_r; f_equal; lia).
  assert (E3 : 2 ^ (2 * b - 1) = 2 ^ b * 2 ^ (b - 1)) by (rewrite <- N.pow_add_r; f_equal; lia).
  destruct (N.le_gt_cases (2 ^ (2 * b - 1)) (p * q)) as [H|H]; [left|right]; unfold has_bits; (split; [lia|]); rewrite ?E1, ?E2, ?E3 in *; nia.
Qed.
Lemma size_limits (n b : N) : 1024 <= b -> b <= 2048 -> has_bits n (2 * b) \/ has_bits n (2 * b - 1) -> 256 ^ 255 <= n < 256 ^ 512.
Proof.
  intros L U H. replace (256 ^ 255) with (2 ^ 2040) by (change 256 with (2 ^ 8); rewrite <- N.pow_mul_r; reflexivity).
  replace (256 ^ 512) with (2 ^ 4096) by (change 256 with (2 ^ 8); rewrite <- N.pow_mul_r; reflexivity).
  destruct H as [(_ & H & H')|(_ & H & H')]; (split; [refine (N.le_trans _ _ _ _ H)|refine (N.lt_le_trans _ _ _ H' _)]); apply N.pow_le_mono_r; try discriminate; clear - L U; lia.
Qed.
Lemma standard_read (n e d p q dp dq qinv : N) : standard_key n e d p q dp dq qinv -> ring_sizes n e d p q ->
  ring_private n e d p q dp dq qinv /\ rsa_exponents e p q dp dq.
Proof.
  intros (P & Q & D & E & Kp & Kq & -> & -> & I & J) (Le & (b & B & Bp & Bq & Db) & Ld).
  assert (B3 : 1024 <= b /\ b <= 2048 /\ (512 | b)).
  { destruct B as [H | [H | H]]; subst b; (split; [lia|split; [lia|]]); [now exists 2|now exists 3|now exists 4]. }
  clear B. destruct B3 as (B1 & B2 & B3).
  assert (X : forall r, has_bits r b -> r <> 2).
  { intros r (_ & L & U) ->. assert (b - 1 <= 1); [|clear - H B1; lia]. apply (N.pow_le_mono_r_iff 2); [reflexivity|exact L]. }
  destruct (exponent_for p e d P (X p Bp) Kp) as (Oe & Od & Odp & Ldp & Np).
  destruct (exponent_for q e d Q (X q Bq) Kq) as (_ & _ & Odq & Ldq & Nq).
  assert (Bn : has_bits n (2 * b) \/ has_bits n (2 * b - 1)) by (subst n; apply bits_product; [clear - B1; lia|exact Bp|exact Bq]).
  assert (O : forall r, is_prime r -> r <> 2 -> N.Odd r). { intros r R R2. destruct (prime_odd r R R2) as (j & Hj & _). exists j. destruct R. clear - Hj H. lia. }
  pose proof (O p P (X p Bp)) as Op. pose proof (O q Q (X q Bq)) as Oq.
  split; [|now split]. apply private_split. split; [|split].
  - unfold checked_numbers. split; [subst n; apply N.odd_spec; rewrite N.odd_mul; apply andb_true_intro; split; now apply N.odd_spec|].
    split; [exact (size_limits n b B1 B2 Bn)|]. split; [exact Oe|]. split; [exact Le|]. split; [subst n; apply N.divide_refl|].
    split; [exists b; auto|]. repeat (split; [assumption|]). assumption.
  - intros _. now split.
  - intros _. now apply prime_pow.
Qed.
