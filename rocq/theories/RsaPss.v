(** The PSS part of Rsa.v computes the signatures of SpecRsa.v. *)
From Verif Require Export RsaFacts.
From Verif Require Import StrFacts SpecFacts AlgFacts KeyFacts ShaFacts ShaStd RsaNum.
Local Open Scope N_scope.

(** ** The mask *)
Lemma nth_flat_map {A} (f : nat -> list A) (k m a i : nat) : (0 < k)%nat -> (forall c, List.length (f c) = k) -> (i < m * k)%nat ->
  nth_error (flat_map f (seq a m)) i = nth_error (f (a + Nat.div i k)%nat) (Nat.modulo i k).
Proof.
  intros K L. revert a i. induction m as [|m IH]; intros a i H; [lia|]. cbn [seq flat_map].
  destruct (Nat.lt_ge_cases i k) as [S|S].
  - rewrite nth_error_app1 by now rewrite L. rewrite Nat.div_small, Nat.mod_small, Nat.add_0_r by exact S. reflexivity.
  - rewrite nth_error_app2 by now rewrite L. rewrite L, IH by lia.
    assert (E : i = ((i - k) + 1 * k)%nat) by lia. rewrite E at 3 4. rewrite Nat.div_add, Nat.mod_add by lia. f_equal. f_equal. lia.
Qed.
Lemma flat_map_len {A} (f : nat -> list A) (k m a : nat) : (forall c, List.length (f c) = k) -> List.length (flat_map f (seq a m)) = (m * k)%nat.
Proof. intro L. revert a. induction m as [|m IH]; intro a; [reflexivity|]. cbn [seq flat_map]. rewrite app_length, L, IH. lia. Qed.
Lemma digest_size_pos (h : hashing) : (0 < digest_size h)%nat.
Proof. destruct h; cbn; lia. Qed.
Lemma blocks_enough (len k : nat) : (0 < k)%nat -> (len <= Nat.div (len + k - 1) k * k)%nat.
Proof.
  intro K. pose proof (Nat.div_mod (len + k - 1) k ltac:(lia)). pose proof (Nat.mod_upper_bound (len + k - 1) k ltac:(lia)). lia.
Qed.
Lemma mgf1_length (h : hashing) (seed : str) (len : nat) : List.length (mgf1 (hf_of h) seed len) = len.
Proof.
  unfold mgf1. rewrite firstn_length, (flat_map_len _ (digest_size h)) by (intro; rewrite hf_of_hash; apply digest_length).
  rewrite hf_of_len. pose proof (blocks_enough len (digest_size h) (digest_size_pos h)). lia.
Qed.
Lemma nth_firstn {A} (l : list A) (n i : nat) : (i < n)%nat -> nth_error (firstn n l) i = nth_error l i.
Proof. revert n i. induction l as [|x l IH]; intros [|n] [|i] H; try lia; try reflexivity. cbn [firstn nth_error]. apply IH. lia. Qed.
Lemma mgf1_nth (h : hashing) (seed : str) (len i : nat) : (i < len)%nat ->
  nth_error (mgf1 (hf_of h) seed len) i
  = nth_error (digest_of h (seed ++ be_bytes 4 (N.of_nat (Nat.div i (digest_size h))))) (Nat.modulo i (digest_size h)).
Proof.
  intro H. unfold mgf1. rewrite nth_firstn by exact H. rewrite hf_of_len, hf_of_hash.
  rewrite (nth_flat_map _ (digest_size h)); [reflexivity|apply digest_size_pos|intro; apply digest_length|].
  pose proof (blocks_enough len (digest_size h) (digest_size_pos h)). lia.
Qed.
Lemma nth_ext_some {A} (l l' : list A) : (forall i, nth_error l i = nth_error l' i) -> l = l'.
Proof.
  revert l'. induction l as [|x l IH]; intros [|y l'] H; [reflexivity|specialize (H O); discriminate|specialize (H O); discriminate|].
  f_equal; [specialize (H O); cbn in H; congruence|]. apply IH. intro i. exact (H (S i)).
Qed.
Lemma four_bytes (x : N) : big_endian (be_bytes 4 x) = x mod 2 ^ 32.
Proof. change (value (be_bytes 4 x) = x mod 2 ^ 32). now rewrite value_be_bytes. Qed.
Lemma mask_iff (h : hashing) (seed mask : str) : mask_bytes h seed mask <-> mask = mgf1 (hf_of h) seed (List.length mask).
Proof.
  split.
  - intro M. apply nth_ext_some. intro i. destruct (Nat.lt_ge_cases i (List.length mask)) as [L|L].
    + rewrite mgf1_nth by exact L. destruct (nth_error mask i) as [c|] eqn:E; [|apply nth_error_None in E; lia].
      destruct (M i c E) as (ctr & L4 & V & N). rewrite <- N. do 3 f_equal. symmetry. apply big_endian_inj; [now rewrite be_bytes_length|].
      now rewrite four_bytes.
    + rewrite (proj2 (nth_error_None mask i) L). symmetry. apply nth_error_None. now rewrite mgf1_length.
  - intros E i c H. assert (L : (i < List.length mask)%nat) by (apply nth_error_Some; congruence). rewrite E, mgf1_nth in H by exact L.
    eexists. split; [apply (be_bytes_length 4)|]. split; [apply four_bytes|exact H].
Qed.

(** ** Exclusive or *)
Lemma xor_length (a b : str) : List.length (xor_bytes a b) = Nat.min (List.length a) (List.length b).
Proof. unfold xor_bytes. now rewrite map_length, combine_length. Qed.
Lemma clear_length (z : N) (s : str) : List.length (clear_top z s) = List.length s.
Proof. now destruct s. Qed.
Lemma xor_lt (a b k : N) : a < 2 ^ k -> b < 2 ^ k -> N.lxor a b < 2 ^ k.
Proof.
  intros A B. destruct (N.eq_dec (N.lxor a b) 0) as [->|Z]; [lia|]. apply N.log2_lt_pow2; [lia|].
  pose proof (N.log2_lxor a b).
  destruct (N.eq_dec k 0) as [->|K]; [change (2 ^ 0) with 1 in *; replace a with 0 in * by lia; replace b with 0 in * by lia; now rewrite N.lxor_0_l in Z|].
  assert (forall x, x < 2 ^ k -> N.log2 x < k) as X.
  { intros x Lx. destruct (N.eq_dec x 0) as [->|]; [cbn; lia|]. apply N.log2_lt_pow2; lia. }
  pose proof (X a A). pose proof (X b B). lia.
Qed.
Lemma xor_byte_code (x c : ascii) : code (xor_byte (code x) c) = N.lxor (code x) (code c).
Proof. unfold xor_byte. apply code_of. apply (xor_lt _ _ 8); apply code_lt. Qed.
Lemma bit_mod (x k : N) (j : nat) : bit (x mod 2 ^ k) j = (N.of_nat j <? k) && bit x j.
Proof.
  unfold bit. destruct (N.ltb_spec (N.of_nat j) k) as [L|L]; cbn [andb]; [now apply N.mod_pow2_bits_low|now apply N.mod_pow2_bits_high].
Qed.
Lemma byte_bits (x y : ascii) : (forall j, (j < 8)%nat -> bit (code x) j = bit (code y) j) -> x = y.
Proof.
  intro H. rewrite <- (of_code x), <- (of_code y). f_equal. apply bits_eq. intro j.
  destruct (Nat.lt_ge_cases j 8) as [L|L]; [now apply H|].
  rewrite !(bit_above 8) by (try exact L; apply code_lt). reflexivity.
Qed.
Lemma xor_bit (x y : ascii) (j : nat) : bit (code (xor_byte (code x) y)) j = xorb (bit (code x) j) (bit (code y) j).
Proof. rewrite xor_byte_code. apply N.lxor_spec. Qed.
Lemma clear_bit (c : ascii) (z : N) (j : nat) : z < 8 -> (j < 8)%nat ->
  bit (code (ascii_of_N (code c mod 2 ^ (8 - z)))) j = if N.of_nat (7 - j) <? z then false else bit (code c) j.
Proof.
  intros Z J. rewrite code_of.
  - rewrite bit_mod. destruct (N.ltb_spec (N.of_nat j) (8 - z)), (N.ltb_spec (N.of_nat (7 - j)) z); cbn [andb]; try reflexivity; lia.
  - apply (N.le_lt_trans _ (code c)); [|apply code_lt]. apply N.mod_le. apply N.pow_nonzero. lia.
Qed.
(** A mask applied twice. *)
Lemma twice_cleared (z : N) (a m : str) : z < 8 -> List.length m = List.length a ->
  clear_top z (xor_bytes (clear_top z (xor_bytes a m)) m) = clear_top z a.
Proof.
  intros Z L. destruct a as [|x a], m as [|y m]; try discriminate; [reflexivity|].
  cbn [List.length] in L. injection L as L. unfold xor_bytes. cbn [combine map clear_top fst snd]. f_equal.
  - apply byte_bits. intros j J. rewrite !clear_bit by assumption. destruct (_ <? z) eqn:E; [reflexivity|].
    rewrite xor_bit, clear_bit, E, xor_bit by assumption. now destruct (bit (code x) j), (bit (code y) j).
  - clear x y. revert m L. induction a as [|x a IH]; intros [|y m] L; try discriminate; [reflexivity|].
    cbn [List.length] in L. injection L as L. cbn [combine map fst snd]. f_equal; [|now apply IH].
    apply byte_bits. intros j J. rewrite !xor_bit. now destruct (bit (code x) j), (bit (code y) j).
Qed.
Lemma nth_xor (a b : str) (i : nat) (x y : ascii) : nth_error a i = Some x -> nth_error b i = Some y ->
  nth_error (xor_bytes a b) i = Some (xor_byte (code x) y).
Proof.
  revert b i. induction a as [|u a IH]; intros [|v b] [|i] A B; try discriminate.
  - cbn in A, B. injection A as ->. injection B as ->. reflexivity.
  - cbn [nth_error] in A, B. now apply IH.
Qed.
Lemma masked_iff (z : nat) (a b c : str) : (z < 8)%nat ->
  (masked_by z a b c <-> List.length b = List.length a /\ c = clear_top (N.of_nat z) (xor_bytes a b)).
Proof.
  intro Z. assert (X : List.length b = List.length a -> masked_by z a b (clear_top (N.of_nat z) (xor_bytes a b))).
  { intro L. split; [exact L|]. split; [rewrite clear_length, xor_length; lia|]. intros i x y w A B C j J.
    pose proof (nth_xor a b i x y A B) as N. destruct (xor_bytes a b) as [|u r]; [now destruct i|].
    destruct i as [|i]; cbn [clear_top nth_error] in C, N.
    - assert (Eu : u = xor_byte (code x) y) by congruence. assert (Ew : w = ascii_of_N (code u mod 2 ^ (8 - N.of_nat z))) by congruence.
      rewrite Ew, Eu, clear_bit by lia. rewrite xor_bit.
      destruct (N.ltb_spec (N.of_nat (7 - j)) (N.of_nat z)), (Nat.ltb_spec (8 * 0 + (7 - j)) z); try reflexivity; lia.
    - rewrite N in C. injection C as <-. rewrite xor_bit. destruct (Nat.ltb_spec (8 * S i + (7 - j)) z); [lia|reflexivity]. }
  split.
  - intros M. pose proof M as (L & L' & H). split; [exact L|]. destruct (X L) as (_ & L2 & H2).
    apply nth_ext_some. intro i. destruct (Nat.lt_ge_cases i (List.length a)) as [S|S].
    + destruct (nth_error a i) as [x|] eqn:A; [|apply nth_error_None in A; lia].
      destruct (nth_error b i) as [y|] eqn:B; [|apply nth_error_None in B; lia].
      destruct (nth_error c i) as [w|] eqn:C; [|apply nth_error_None in C; lia].
      destruct (nth_error (clear_top (N.of_nat z) (xor_bytes a b)) i) as [w'|] eqn:D; [|apply nth_error_None in D; lia].
      f_equal. apply byte_bits. intros j J. rewrite (H i x y w A B C j J), (H2 i x y w' A B D j J). reflexivity.
    + rewrite (proj2 (nth_error_None c i)), (proj2 (nth_error_None (clear_top _ _) i)) by lia. reflexivity.
  - intros [L ->]. now apply X.
Qed.

(** ** Blocks *)
Lemma byte_length_spec (b : N) : exists z, 8 * N.of_nat (byte_length b) = b + N.of_nat z /\ (z < 8)%nat.
Proof.
  unfold byte_length. rewrite N2Nat.id. pose proof (N.div_mod (b + 7) 8 ltac:(lia)). pose proof (N.mod_lt (b + 7) 8 ltac:(lia)).
  exists (N.to_nat (8 * ((b + 7) / 8) - b)). lia.
Qed.
Lemma byte_length_unique (b : N) (k z : nat) : 8 * N.of_nat k = b + N.of_nat z -> (z < 8)%nat -> byte_length b = k.
Proof. intros E L. destruct (byte_length_spec b) as (z' & E' & L'). lia. Qed.
Lemma pss_block_iff (h : hashing) (msg salt em : str) (b : N) :
  (emsa_pss (hf_of h) b salt msg = Some em /\ List.length salt = digest_size h) <-> pss_block h msg salt b em.
Proof.
  unfold emsa_pss, pss_block, pss_hash. rewrite !hf_of_len, !hf_of_hash. set (H := digest_of h (repeat zero 8 ++ digest_of h msg ++ salt)).
  assert (LH : List.length H = digest_size h) by apply digest_length. pose proof (digest_size_pos h) as Dp. split.
  - intros [E S]. destruct (byte_length_spec b) as (z & Ez & Lz). set (len := byte_length b) in *.
    destruct (Nat.ltb_spec len (2 * digest_size h + 2)) as [Sh|Sh]; [discriminate|].
    set (zs := repeat zero (len - 2 * digest_size h - 2)) in *. set (db := zs ++ ascii_of_N 1 :: salt) in *.
    assert (Lzs : List.length zs = (len - 2 * digest_size h - 2)%nat) by apply repeat_length.
    assert (Ldb : List.length db = (len - digest_size h - 1)%nat) by (unfold db; rewrite app_length; cbn [List.length]; lia).
    set (mask := mgf1 (hf_of h) H (len - digest_size h - 1)) in *.
    assert (Lm : List.length mask = List.length db) by (unfold mask; rewrite mgf1_length; lia).
    set (masked := clear_top (8 * N.of_nat len - b) (xor_bytes db mask)) in *.
    assert (Lmd : List.length masked = List.length db) by (unfold masked; rewrite clear_length, xor_length; lia).
    assert (E' : em = masked ++ H ++ [ascii_of_N 188]) by congruence. clear E. subst em.
    exists zs, mask, masked, H, z. cbv zeta. rewrite !app_length, Lmd, LH. cbn [List.length].
    split; [rewrite Ldb; lia|]. split; [exact Lz|]. split; [exact S|]. split; [reflexivity|].
    split; [apply forall_repeat; unfold zs; now rewrite repeat_length|].
    split; [apply mask_iff; unfold mask; now rewrite mgf1_length|].
    split; [|reflexivity]. apply masked_iff; [exact Lz|]. split; [exact Lm|]. unfold masked. change (zs ++ [byte 1] ++ salt) with db. f_equal. lia.
  - intros (zs & mask & masked & H' & z & Ez & Lz & S & EH & Fz & M & Mk & ->). change (H' = H) in EH. subst H'.
    apply masked_iff in Mk; [|exact Lz]. destruct Mk as [Lm Emk]. apply mask_iff in M. apply forall_repeat in Fz.
    change ([byte 1] ++ salt) with (ascii_of_N 1 :: salt) in *.
    assert (Ldb : List.length (zs ++ ascii_of_N 1 :: salt) = (List.length zs + digest_size h + 1)%nat) by (rewrite app_length; cbn [List.length]; lia).
    assert (Lmd : List.length masked = (List.length zs + digest_size h + 1)%nat) by (rewrite Emk, clear_length, xor_length; lia).
    rewrite !app_length, Lmd, LH in Ez. cbn [List.length] in Ez.
    assert (Len : byte_length b = (List.length zs + 2 * digest_size h + 2)%nat) by (apply (byte_length_unique b _ z); [lia|exact Lz]).
    split; [|exact S]. rewrite Len.
    destruct (Nat.ltb_spec (List.length zs + 2 * digest_size h + 2) (2 * digest_size h + 2)) as [Sh|Sh]; [lia|].
    replace (List.length zs + 2 * digest_size h + 2 - 2 * digest_size h - 2)%nat with (List.length zs) by lia.
    change zero with (byte 0). rewrite <- Fz. f_equal. f_equal. rewrite Emk.
    replace (8 * N.of_nat (List.length zs + 2 * digest_size h + 2) - b) with (N.of_nat z) by lia. do 2 f_equal.
    rewrite M. f_equal. lia.
Qed.
Lemma pss_block_length (h : hashing) (msg salt em : str) (b : N) : pss_block h msg salt b em -> List.length em = byte_length b.
Proof. intros (zs & mask & masked & H & z & Ez & Lz & _). symmetry. now apply (byte_length_unique b _ z). Qed.
Lemma pss_block_exists (h : hashing) (msg salt : str) (b : N) : List.length salt = digest_size h -> (2 * digest_size h + 2 <= byte_length b)%nat ->
  exists em, pss_block h msg salt b em.
Proof.
  intros S L. destruct (emsa_pss (hf_of h) b salt msg) as [em|] eqn:E; [exists em; now apply pss_block_iff|].
  unfold emsa_pss in E. rewrite hf_of_len in E. destruct (Nat.ltb_spec (byte_length b) (2 * digest_size h + 2)); [lia|discriminate].
Qed.
Lemma pss_block_unique (h : hashing) (msg salt em em' : str) (b : N) : pss_block h msg salt b em -> pss_block h msg salt b em' -> em = em'.
Proof. intros H H'. apply pss_block_iff in H, H'. destruct H, H'. congruence. Qed.

Lemma firstn_exact {A} (a b : list A) (k : nat) : List.length a = k -> firstn k (a ++ b) = a.
Proof. intros <-. rewrite firstn_app, Nat.sub_diag, firstn_all. cbn [firstn]. apply app_nil_r. Qed.
Lemma skipn_exact {A} (a b : list A) (k : nat) : List.length a = k -> skipn k (a ++ b) = b.
Proof. intros <-. rewrite skipn_app, Nat.sub_diag, skipn_all. reflexivity. Qed.
Lemma clear_small (z : N) (zs : str) (s : str) : z < 8 -> zs = repeat zero (List.length zs) ->
  clear_top z (zs ++ ascii_of_N 1 :: s) = zs ++ ascii_of_N 1 :: s.
Proof.
  intros Z E. destruct zs as [|c zs]; cbn [app clear_top].
  - f_equal. rewrite N.mod_small; [reflexivity|]. change (code (ascii_of_N 1)) with 1. change 1 with (2 ^ 0). apply N.pow_lt_mono_r; lia.
  - f_equal. cbn [List.length repeat] in E. injection E as -> _. change (code zero) with 0. rewrite N.mod_0_l; [reflexivity|]. apply N.pow_nonzero. lia.
Qed.
Lemma clear_idem (z : N) (s : str) : clear_top z (clear_top z s) = clear_top z s.
Proof.
  destruct s as [|c s]; [reflexivity|]. cbn [clear_top]. f_equal. rewrite code_of.
  - f_equal. apply N.mod_mod. apply N.pow_nonzero. lia.
  - apply (N.le_lt_trans _ (code c)); [|apply code_lt]. apply N.mod_le, N.pow_nonzero. lia.
Qed.
Lemma pss_verify_iff (h : hashing) (msg em : str) (b : N) : List.length em = byte_length b ->
  (pss_verify (hf_of h) b msg em = true <-> exists salt, pss_block h msg salt b em).
Proof.
  intro Len. unfold pss_verify. rewrite !hf_of_len. pose proof (digest_size_pos h) as Dp.
  destruct (byte_length_spec b) as (z & Ez & Lz). set (len := byte_length b) in *.
  replace (8 * N.of_nat len - b) with (N.of_nat z) by lia.
  destruct (Nat.ltb_spec len (2 * digest_size h + 2)) as [Sh|Sh].
  { split; [discriminate|]. intros [salt P]. apply pss_block_iff in P. destruct P as [P _]. unfold emsa_pss in P. rewrite hf_of_len in P.
    fold len in P. destruct (Nat.ltb_spec len (2 * digest_size h + 2)); [discriminate|lia]. }
  set (dl := (len - digest_size h - 1)%nat). set (masked := firstn dl em). set (rest := skipn dl em).
  set (hh := firstn (digest_size h) rest). set (mask := mgf1 (hf_of h) hh dl). set (db := clear_top (N.of_nat z) (xor_bytes masked mask)).
  assert (Lmd : List.length masked = dl) by (unfold masked; rewrite firstn_length; lia).
  assert (Lr : List.length rest = S (digest_size h)) by (unfold rest; rewrite skipn_length; lia).
  assert (Lh : List.length hh = digest_size h) by (unfold hh; rewrite firstn_length; lia).
  assert (Lm : List.length mask = dl) by apply mgf1_length.
  assert (Ldb : List.length db = dl) by (unfold db; rewrite clear_length, xor_length; lia).
  assert (Eem : em = masked ++ hh ++ skipn (digest_size h) rest) by (unfold masked, hh; now rewrite !firstn_skipn).
  assert (S8 : S (dl - digest_size h - 1) = (len - 2 * digest_size h - 1)%nat) by lia.
  split.
  - intro V. repeat (apply andb_prop in V; destruct V as [V ?E]). apply str_eqb_eq in V, E, E0, E1.
    set (salt := skipn (S (dl - digest_size h - 1)) db) in *. exists salt. apply pss_block_iff.
    assert (Ls : List.length salt = digest_size h) by (unfold salt; rewrite skipn_length; lia). split; [|exact Ls].
    unfold emsa_pss. rewrite hf_of_len. fold len. destruct (Nat.ltb_spec len (2 * digest_size h + 2)) as [X|_]; [lia|].
    rewrite E. fold dl mask. replace (8 * N.of_nat len - b) with (N.of_nat z) by lia.
    assert (Edb : repeat zero (len - 2 * digest_size h - 2) ++ ascii_of_N 1 :: salt = db).
    { rewrite <- (firstn_skipn (S (dl - digest_size h - 1)) db). fold salt. rewrite E0, <- app_assoc. cbn [app]. do 2 f_equal. lia. }
    rewrite Edb. f_equal. rewrite Eem, V. f_equal. unfold db. rewrite twice_cleared by (try lia). exact E1.
  - intros [salt P]. pose proof P as P0. apply pss_block_iff in P. destruct P as [P Ls]. unfold emsa_pss in P. rewrite hf_of_len in P. fold len in P.
    destruct (Nat.ltb_spec len (2 * digest_size h + 2)) as [X|_]; [lia|]. fold dl in P. replace (8 * N.of_nat len - b) with (N.of_nat z) in P by lia.
    set (H := pss_hash (hf_of h) msg salt) in *. assert (LH : List.length H = digest_size h) by (unfold H, pss_hash; rewrite hf_of_hash; apply digest_length).
    set (zs := repeat zero (len - 2 * digest_size h - 2)) in *. set (D := zs ++ ascii_of_N 1 :: salt) in *.
    assert (Lzs : List.length zs = (len - 2 * digest_size h - 2)%nat) by apply repeat_length.
    assert (LD : List.length D = dl) by (unfold D; rewrite app_length; cbn [List.length]; lia).
    set (mk := clear_top (N.of_nat z) (xor_bytes D (mgf1 (hf_of h) H dl))) in *.
    assert (Lmk : List.length mk = dl) by (unfold mk; rewrite clear_length, xor_length, mgf1_length; lia).
    assert (Ee : em = mk ++ H ++ [ascii_of_N 188]) by congruence.
    assert (Emd : masked = mk) by (unfold masked; rewrite Ee; now apply firstn_exact).
    assert (Ers : rest = H ++ [ascii_of_N 188]) by (unfold rest; rewrite Ee; now apply skipn_exact).
    assert (Ehh : hh = H) by (unfold hh; rewrite Ers; now apply firstn_exact).
    assert (Edb : db = D).
    { unfold db, mask. rewrite Emd, Ehh. unfold mk. rewrite twice_cleared by (try lia; now rewrite mgf1_length).
      unfold D. apply clear_small; [lia|]. unfold zs. now rewrite repeat_length. }
    rewrite Ers, (skipn_exact H _ _ LH), Emd, Edb, Ehh.
    assert (Ezs : D = (repeat zero (dl - digest_size h - 1) ++ [ascii_of_N 1]) ++ salt).
    { unfold D, zs. rewrite <- app_assoc. cbn [app]. do 2 f_equal. lia. }
    assert (L1 : List.length (repeat zero (dl - digest_size h - 1) ++ [ascii_of_N 1]) = S (dl - digest_size h - 1)) by (rewrite app_length, repeat_length; cbn; lia).
    rewrite Ezs, (firstn_exact _ _ _ L1), (skipn_exact _ _ _ L1), !str_eqb_refl.
    unfold mk. rewrite clear_idem, str_eqb_refl. reflexivity.
Qed.
(** The block is below the modulus. *)
Lemma pss_block_small (h : hashing) (msg salt em : str) (n b : N) : has_bits n b -> pss_block h msg salt (b - 1) em -> big_endian em < n.
Proof.
  intros [B [L U]] (zs & mask & masked & H & z & Ez & Lz & S & EH & _ & _ & Mk & ->).
  apply (N.lt_le_trans _ (2 ^ (b - 1))); [|exact L]. clear L U.
  apply masked_iff in Mk; [|exact Lz]. destruct Mk as [Lm Emk].
  set (db := zs ++ [byte 1] ++ salt) in *. assert (db <> []) by (unfold db; now destruct zs).
  destruct db as [|x db]; [contradiction|]. destruct mask as [|y mask]; [discriminate|].
  unfold xor_bytes in Emk. cbn [combine map clear_top fst snd] in Emk. set (r := map _ (combine db mask)) in Emk. subst masked.
  cbn [app List.length] in Ez |- *. cbn [big_endian]. set (t := r ++ H ++ [byte 188]) in *. pose proof (big_endian_lt t) as Lt.
  set (c := xor_byte (code x) y). rewrite code_of by (apply (N.le_lt_trans _ (code c)); [apply N.mod_le, N.pow_nonzero; lia|apply code_lt]).
  assert (M : code c mod 2 ^ (8 - N.of_nat z) < 2 ^ (8 - N.of_nat z)) by (apply N.mod_lt, N.pow_nonzero; lia).
  set (q := 256 ^ N.of_nat (List.length t)) in *.
  assert (E : 2 ^ (b - 1) = 2 ^ (8 - N.of_nat z) * q).
  { unfold q. change 256 with (2 ^ 8). rewrite <- N.pow_mul_r, <- N.pow_add_r. f_equal. lia. }
  rewrite E. nia.
Qed.
Lemma has_bits_pos (n b : N) : has_bits n b -> n <> 0.
Proof. intros [_ [L _]]. assert (2 ^ (b - 1) <> 0) by (apply N.pow_nonzero; lia). lia. Qed.
Lemma pss_check_iff (h : hashing) (n e : N) (msg tag : str) : n <> 0 ->
  (pss_check (hf_of h) n e msg tag = true <-> exists salt, pss_signature h n e msg salt tag).
Proof.
  intro Z. pose proof (size_bits n Z) as B. unfold pss_check, pss_signature. set (b := N.size n - 1). split.
  - destruct (rsa_open n e tag) as [m|] eqn:O; [|discriminate]. apply open_iff in O; [|exact Z]. destruct O as (Bt & L & E).
    intro H. apply andb_prop in H. destruct H as [Lm H]. apply N.ltb_lt in Lm.
    apply pss_verify_iff in H; [|apply be_bytes_length]. destruct H as [salt P].
    exists salt, (N.size n), (be_bytes (byte_length b) m). split; [exact B|]. split; [exact P|]. split; [exact Bt|]. split; [exact L|].
    now rewrite big_endian_of.
  - intros (salt & b' & em & B' & P & Bt & L & E). assert (b' = N.size n) by exact (bits_unique n b' _ B' B). subst b'. fold b in P.
    rewrite (proj2 (open_iff n e (big_endian em) tag Z)) by auto. pose proof (pss_block_length _ _ _ _ _ P) as Le. rewrite <- Le.
    rewrite of_big_endian. apply andb_true_intro. split; [apply N.ltb_lt, big_endian_lt|]. apply pss_verify_iff; [exact Le|]. now exists salt.
Qed.
Lemma pss_sign_opens (h : hashing) (n e d rnd : N) (msg : str) (b : N) : rsa_numbers n e d -> has_bits n b -> 8 * N.of_nat (2 * digest_size h + 2) <= b + 6 ->
  pss_signature h n e msg (be_bytes (digest_size h) rnd) (pss_sign (hf_of h) n d rnd msg).
Proof.
  intros K B L. assert (Eb : b = N.size n) by (apply (bits_unique n); [exact B|]; apply size_bits; now apply (has_bits_pos n b)).
  destruct (byte_length_spec (b - 1)) as (z & Ez & Lz). assert (Bp : 1 <= b) by apply B.
  destruct (pss_block_exists h msg (be_bytes (digest_size h) rnd) (b - 1) (be_bytes_length _ _) ltac:(lia)) as [em P].
  unfold pss_sign. rewrite hf_of_len, <- Eb. pose proof (proj2 (pss_block_iff _ _ _ _ _) P) as [P' _]. rewrite P'.
  exists b, em. split; [exact B|]. split; [exact P|]. apply apply_opens; [exact K|]. now apply (pss_block_small h msg (be_bytes (digest_size h) rnd) em n b).
Qed.
Lemma pss_unique (h : hashing) (n e d : N) (msg salt tag tag' : str) : rsa_numbers n e d ->
  pss_signature h n e msg salt tag -> pss_signature h n e msg salt tag' -> tag = tag'.
Proof.
  intros K (b & em & B & P & O) (b' & em' & B' & P' & O'). assert (b = b') by exact (bits_unique n b b' B B'). subst b'.
  assert (em = em') by exact (pss_block_unique h msg salt em em' _ P P'). subst em'. now apply (opens_unique n e d tag tag' em).
Qed.
(** A tag for two messages: the two digests of salted digests are the same. *)
Lemma pss_binds (h : hashing) (n e : N) (msg msg' salt salt' tag : str) :
  pss_signature h n e msg salt tag -> pss_signature h n e msg' salt' tag ->
  let m := repeat (byte 0) 8 ++ digest_of h msg ++ salt in let m' := repeat (byte 0) 8 ++ digest_of h msg' ++ salt' in
  digest_of h m = digest_of h m' /\ (m = m' -> digest_of h msg = digest_of h msg').
Proof.
  intros (b & em & B & P & O) (b' & em' & B' & P' & O'). assert (b = b') by exact (bits_unique n b b' B B'). subst b'. cbv zeta. split.
  - assert (em = em') by (apply (opens_block n e tag); [|exact O|exact O']; now rewrite (pss_block_length _ _ _ _ _ P), (pss_block_length _ _ _ _ _ P')).
    subst em'. destruct P as (zs & mask & masked & H & z & _ & _ & _ & EH & _ & _ & _ & E), P' as (zs' & mask' & masked' & H' & z' & _ & _ & _ & EH' & _ & _ & _ & E').
    rewrite <- EH, <- EH'. rewrite E, !app_assoc in E'. apply app_inj_tail in E'. destruct E' as [E' _].
    assert (List.length H = List.length H') by (rewrite EH, EH', !digest_length; reflexivity).
    assert (X : rev H ++ rev masked = rev H' ++ rev masked') by (rewrite <- !rev_app_distr; now f_equal).
    apply (f_equal (firstn (List.length H))) in X. rewrite firstn_exact in X by apply rev_length.
    rewrite firstn_exact in X by (rewrite rev_length; congruence). rewrite <- (rev_involutive H), X. apply rev_involutive.
  - intro X. apply app_inv_head in X. apply (f_equal (firstn (digest_size h))) in X. now rewrite !firstn_exact in X by apply digest_length.
Qed.
