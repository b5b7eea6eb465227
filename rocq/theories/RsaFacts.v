(** Rsa.v computes the signatures of SpecRsa.v. *)
From Verif Require Export SpecRsa Rsa.
From Verif Require Import StrFacts SpecFacts AlgFacts KeyFacts ShaFacts ShaStd RsaNum.
Local Open Scope N_scope.

(** ** Numbers *)
Lemma pow_mod_pos_eq (x n : N) (e : positive) : n <> 0 -> pow_mod_pos x e n = x ^ Npos e mod n.
Proof.
  intro Z. induction e as [e IH|e IH|]; cbn [pow_mod_pos].
  - rewrite IH. rewrite <- N.mul_mod, N.mul_mod_idemp_l by exact Z.
    replace (N.pos e~1) with (N.pos e + N.pos e + 1) by lia. now rewrite !N.pow_add_r, N.pow_1_r.
  - rewrite IH, <- N.mul_mod by exact Z. replace (N.pos e~0) with (N.pos e + N.pos e) by lia. now rewrite N.pow_add_r.
  - now rewrite N.pow_1_r.
Qed.
Lemma pow_mod_eq (x e n : N) : n <> 0 -> pow_mod x e n = x ^ e mod n.
Proof. intro Z. destruct e; [now rewrite N.pow_0_r|now apply pow_mod_pos_eq]. Qed.

Lemma big_endian_of (k : nat) (x : N) : x < 256 ^ N.of_nat k -> big_endian (be_bytes k x) = x.
Proof. intro L. change (value (be_bytes k x) = x). now rewrite value_be_bytes, N.mod_small. Qed.
Lemma big_endian_inj (s t : str) : List.length s = List.length t -> big_endian s = big_endian t -> s = t.
Proof.
  revert t. induction s as [|a s IH]; intros [|b t] L E; try discriminate; [reflexivity|].
  cbn [List.length] in L. injection L as L. cbn [big_endian] in E. rewrite L in E.
  pose proof (big_endian_lt s) as A. pose proof (big_endian_lt t) as B. rewrite L in A.
  assert (code a = code b) by nia. assert (a = b) by (rewrite <- (of_code a), <- (of_code b); now f_equal). subst b.
  f_equal. apply IH; [exact L|lia].
Qed.
Lemma of_big_endian (s : str) : be_bytes (List.length s) (big_endian s) = s.
Proof. apply big_endian_inj; [apply be_bytes_length|]. apply big_endian_of, big_endian_lt. Qed.

Lemma size_bits (n : N) : n <> 0 -> has_bits n (N.size n).
Proof.
  intro Z. destruct n as [|p]; [contradiction|]. rewrite N.size_log2 by discriminate. pose proof (N.log2_spec (N.pos p) ltac:(lia)).
  split; [lia|]. replace (N.succ (N.log2 (N.pos p)) - 1) with (N.log2 (N.pos p)) by lia. exact H.
Qed.
Lemma bits_unique (n b b' : N) : has_bits n b -> has_bits n b' -> b = b'.
Proof.
  intros [B [L U]] [B' [L' U']]. assert (b - 1 < b') by (apply (N.pow_lt_mono_r_iff 2); lia).
  assert (b' - 1 < b) by (apply (N.pow_lt_mono_r_iff 2); lia). lia.
Qed.
Lemma bytes_bits (n b : N) (k : nat) : has_bits n b -> (has_bytes n k <-> byte_length b = k).
Proof.
  intros [B [L U]]. unfold has_bytes, byte_length. change 256 with (2 ^ 8). rewrite <- !N.pow_mul_r.
  assert (D : b + 7 = 8 * ((b + 7) / 8) + (b + 7) mod 8) by (apply N.div_mod; lia). assert ((b + 7) mod 8 < 8) by (apply N.mod_lt; lia).
  split.
  - intros [K [L' U']]. assert (8 * (N.of_nat k - 1) < b) by (apply (N.pow_lt_mono_r_iff 2); lia).
    assert (b - 1 < 8 * N.of_nat k) by (apply (N.pow_lt_mono_r_iff 2); lia). lia.
  - intros <-. rewrite N2Nat.id. split; [lia|]. split.
    + apply (N.le_trans _ (2 ^ (b - 1))); [|exact L]. apply N.pow_le_mono_r; lia.
    + apply (N.lt_le_trans _ (2 ^ b)); [exact U|]. apply N.pow_le_mono_r; lia.
Qed.
Lemma bytes_length (n : N) (k : nat) : has_bytes n k -> byte_length (N.size n) = k.
Proof.
  intro H. apply (bytes_bits n); [|exact H]. apply size_bits. intros ->. destruct H as [_ [H _]].
  assert (256 ^ (N.of_nat k - 1) <> 0) by (apply N.pow_nonzero; lia). lia.
Qed.
Lemma length_bytes_of (n : N) : n <> 0 -> has_bytes n (byte_length (N.size n)).
Proof. intro Z. apply (bytes_bits n (N.size n)); [now apply size_bits|reflexivity]. Qed.

(** Opening a tag. *)
Lemma open_iff (n e m : N) (tag : str) : n <> 0 ->
  (rsa_open n e tag = Some m <-> has_bytes n (List.length tag) /\ big_endian tag < n /\ big_endian tag ^ e mod n = m).
Proof.
  intro Z. unfold rsa_open. rewrite be_value_spec. destruct (Nat.eqb_spec (List.length tag) (byte_length (N.size n))) as [E|E]; cbn [andb].
  - destruct (N.ltb_spec (big_endian tag) n) as [L|L]; rewrite ?pow_mod_eq by exact Z; split.
    + intro H. injection H as <-. rewrite E. split; [now apply length_bytes_of|]. now split.
    + now intros (_ & _ & ->).
    + discriminate.
    + intros (_ & H & _). lia.
  - split; [discriminate|]. intros (H & _). apply bytes_length in H. congruence.
Qed.
(** The inverse operations. *)
Lemma apply_opens (n e d : N) (em : str) : rsa_numbers n e d -> big_endian em < n -> opens n e (rsa_apply n d em) em.
Proof.
  intros K L. assert (Z : n <> 0) by lia. unfold opens, rsa_apply. rewrite be_bytes_length, be_value_spec, pow_mod_eq by exact Z.
  pose proof (length_bytes_of n Z) as HB. split; [exact HB|].
  assert (M : big_endian em ^ d mod n < n) by now apply N.mod_lt.
  rewrite big_endian_of by (destruct HB as [_ [_ HB]]; lia). split; [exact M|].
  assert (P : forall j, (big_endian em ^ d mod n) ^ j mod n = (big_endian em ^ d) ^ j mod n).
  { intro j. induction j as [|j IH] using N.peano_ind; [reflexivity|]. rewrite !N.pow_succ_r'.
    rewrite N.mul_mod_idemp_l by exact Z. rewrite <- N.mul_mod_idemp_r, IH, N.mul_mod_idemp_r by exact Z. reflexivity. }
  rewrite P, <- N.pow_mul_r, (N.mul_comm d e), (rsa_inverse n e d) by exact K. now apply N.mod_small.
Qed.
Lemma opens_unique (n e d : N) (tag tag' em : str) : rsa_numbers n e d -> opens n e tag em -> opens n e tag' em -> tag = tag'.
Proof.
  intros K (B & L & E) (B' & L' & E'). assert (Z : n <> 0) by lia.
  assert (X : forall s, s < n -> s ^ e mod n = big_endian em -> s = big_endian em ^ d mod n).
  { intros s Ls Es. rewrite <- Es.
    assert (P : forall j, (s ^ e mod n) ^ j mod n = (s ^ e) ^ j mod n).
    { intro j. induction j as [|j IH] using N.peano_ind; [reflexivity|]. rewrite !N.pow_succ_r'.
      rewrite N.mul_mod_idemp_l by exact Z. rewrite <- N.mul_mod_idemp_r, IH, N.mul_mod_idemp_r by exact Z. reflexivity. }
    rewrite P, <- N.pow_mul_r, (rsa_inverse n e d s K). symmetry. now apply N.mod_small. }
  apply big_endian_inj; [apply bytes_length in B, B'; congruence|]. rewrite (X _ L E), (X _ L' E'). reflexivity.
Qed.
Lemma opens_block (n e : N) (tag em em' : str) : List.length em = List.length em' -> opens n e tag em -> opens n e tag em' -> em = em'.
Proof. intros Len (_ & _ & E) (_ & _ & E'). apply big_endian_inj; [exact Len|congruence]. Qed.

(** ** PKCS #1 v1.5 *)
Definition hf_of (h : hashing) : hash_function := match h with With_SHA256 => hf_sha256 | With_SHA512 => hf_sha512 end.
Lemma hf_of_hash (h : hashing) : hf_hash (hf_of h) = digest_of h.
Proof. now destruct h. Qed.
Lemma hf_of_len (h : hashing) : hf_len (hf_of h) = digest_size h.
Proof. now destruct h. Qed.
Lemma digest_length (h : hashing) (m : str) : List.length (digest_of h m) = digest_size h.
Proof. destruct h; [apply sha256_length|apply sha512_length]. Qed.
Lemma info_length (h : hashing) : List.length (hf_info (hf_of h)) = 19%nat.
Proof. now destruct h. Qed.

Lemma tagged_short (t : N) (v s : str) : N.of_nat (List.length v) < 128 ->
  (tagged t v s <-> s = ascii_of_N t :: ascii_of_N (N.of_nat (List.length v)) :: v).
Proof.
  intro L. unfold tagged. split.
  - intros (l & H & ->). inversion H as [|b r R]; subst; [reflexivity|lia].
  - intros ->. exists [ascii_of_N (N.of_nat (List.length v))]. split; [now constructor|reflexivity].
Qed.
Lemma digest_info_iff (h : hashing) (d s : str) : List.length d = digest_size h ->
  (digest_info (digest_oid h) d s <-> s = hf_info (hf_of h) ++ d).
Proof.
  intro L. unfold digest_info. split.
  - intros (id & nul & alg & oct & H1 & H2 & H3 & H4 & H5).
    apply tagged_short in H1; [|now destruct h]. apply tagged_short in H2; [|reflexivity]. subst id nul.
    apply tagged_short in H3; [|now destruct h]. subst alg.
    apply tagged_short in H4; [|rewrite L; now destruct h]. subst oct.
    apply tagged_short in H5; [|rewrite app_length; cbn [List.length]; rewrite L; now destruct h]. subst s.
    rewrite app_length. cbn [List.length]. rewrite L. destruct h; reflexivity.
  - intros ->. eexists _, _, _, _.
    split; [apply tagged_short; [now destruct h|reflexivity]|].
    split; [apply tagged_short; reflexivity|].
    split; [apply tagged_short; [now destruct h|reflexivity]|].
    split; [apply tagged_short; [rewrite L; now destruct h|reflexivity]|].
    apply tagged_short; [rewrite app_length; cbn [List.length]; rewrite L; now destruct h|].
    rewrite app_length. cbn [List.length]. rewrite L. destruct h; reflexivity.
Qed.
Lemma forall_repeat {A} (x : A) (l : list A) : Forall (eq x) l <-> l = repeat x (List.length l).
Proof.
  split.
  - induction 1 as [|y l <- F IH]; [reflexivity|]. cbn [List.length repeat]. now f_equal.
  - intros ->. induction (List.length l); [constructor|]. cbn [repeat]. now constructor.
Qed.
Lemma pkcs1_block_iff (h : hashing) (msg em : str) (k : nat) : emsa_pkcs1 (hf_of h) k msg = Some em <-> pkcs1_block h msg k em.
Proof.
  unfold emsa_pkcs1, pkcs1_block. rewrite hf_of_hash. pose proof (digest_length h msg) as L. set (d := digest_of h msg) in *.
  rewrite app_length, info_length, L. split.
  - destruct (Nat.ltb_spec k (19 + digest_size h + 11)) as [S|S]; [discriminate|]. intro H. injection H as <-.
    exists (repeat (ascii_of_N 255) (k - (19 + digest_size h) - 3)), (hf_info (hf_of h) ++ d).
    split; [now apply digest_info_iff|]. split; [apply forall_repeat; now rewrite repeat_length|]. rewrite repeat_length. split; [lia|].
    split; [reflexivity|]. cbn [List.length]. rewrite app_length, repeat_length. cbn [List.length]. rewrite app_length, info_length, L. lia.
  - intros (ff & info & I & F & G & -> & K). apply digest_info_iff in I; [|exact L]. subst info.
    cbn [app List.length] in K. rewrite app_length in K. cbn [List.length] in K. rewrite app_length, info_length, L in K.
    destruct (Nat.ltb_spec k (19 + digest_size h + 11)) as [S|S]; [lia|].
    apply forall_repeat in F. rewrite F. replace (k - (19 + digest_size h) - 3)%nat with (List.length ff) by lia. reflexivity.
Qed.
Lemma pkcs1_block_size (h : hashing) (msg em : str) (k : nat) : pkcs1_block h msg k em -> (digest_size h + 30 <= k)%nat.
Proof.
  intro H. apply pkcs1_block_iff in H. unfold emsa_pkcs1 in H. rewrite app_length, info_length, hf_of_hash, digest_length in H.
  destruct (Nat.ltb_spec k (19 + digest_size h + 11)); [discriminate|lia].
Qed.
Lemma pkcs1_block_exists (h : hashing) (msg : str) (k : nat) : (digest_size h + 30 <= k)%nat -> exists em, pkcs1_block h msg k em.
Proof.
  intro H. destruct (emsa_pkcs1 (hf_of h) k msg) as [em|] eqn:E; [exists em; now apply pkcs1_block_iff|].
  unfold emsa_pkcs1 in E. rewrite app_length, info_length, hf_of_hash, digest_length in E.
  destruct (Nat.ltb_spec k (19 + digest_size h + 11)); [lia|discriminate].
Qed.
Lemma pkcs1_block_unique (h : hashing) (msg em em' : str) (k : nat) : pkcs1_block h msg k em -> pkcs1_block h msg k em' -> em = em'.
Proof. intros H H'. apply pkcs1_block_iff in H, H'. congruence. Qed.
Lemma pkcs1_block_digest (h : hashing) (msg msg' em : str) (k : nat) : pkcs1_block h msg k em -> pkcs1_block h msg' k em -> digest_of h msg = digest_of h msg'.
Proof.
  intros H H'. apply pkcs1_block_iff in H, H'. unfold emsa_pkcs1 in H, H'. rewrite hf_of_hash in *.
  rewrite app_length, info_length, digest_length in H, H'. destruct (Nat.ltb _ _); [discriminate|].
  assert (E : Some em = Some em) by reflexivity. rewrite <- H in E at 1. rewrite <- H' in E. injection E as E.
  apply app_inv_head in E. injection E as E. now apply app_inv_head in E.
Qed.
(** The block is below the modulus: its first byte is zero. *)
Lemma pkcs1_block_small (h : hashing) (msg em : str) (n : N) (k : nat) : has_bytes n k -> pkcs1_block h msg k em -> big_endian em < n.
Proof.
  intros [K [L U]] (ff & info & _ & _ & _ & -> & Len). cbn [app] in *. cbn [big_endian] in *. cbn [List.length] in Len.
  change (code (byte 0)) with 0. change (code (byte 1)) with 1.
  set (r := ff ++ byte 0 :: info) in *. pose proof (big_endian_lt r). set (q := 256 ^ N.of_nat (List.length r)) in *.
  assert (E : 256 ^ (N.of_nat k - 1) = 256 * q).
  { unfold q. rewrite <- N.pow_succ_r'. f_equal. lia. }
  assert (q <> 0) by (apply N.pow_nonzero; lia). nia.
Qed.
Lemma pkcs1_verify_iff (h : hashing) (n e : N) (msg tag : str) : n <> 0 ->
  (pkcs1_verify (hf_of h) n e msg tag = true <-> pkcs1_signature h n e msg tag).
Proof.
  intro Z. unfold pkcs1_verify, pkcs1_signature, opens. split.
  - destruct (rsa_open n e tag) as [m|] eqn:O; [|discriminate]. apply open_iff in O; [|exact Z]. destruct O as (B & L & E).
    rewrite (bytes_length n _ B). destruct (emsa_pkcs1 _ _ _) as [em|] eqn:P; [|discriminate].
    intro H. apply str_eqb_eq in H. apply pkcs1_block_iff in P. exists em. split; [exact P|]. split; [exact B|]. split; [exact L|].
    rewrite E, <- H. symmetry. apply big_endian_of. apply (N.lt_trans _ n); [|apply B]. subst m. now apply N.mod_lt.
  - intros (em & P & B & L & E). rewrite (proj2 (open_iff n e (big_endian em) tag Z)) by auto.
    rewrite (bytes_length n _ B). pose proof (proj2 (pkcs1_block_iff _ _ _ _) P) as P'. rewrite P'. apply str_eqb_eq.
    replace (List.length tag) with (List.length em); [apply of_big_endian|]. destruct P as (ff & info & _ & _ & _ & _ & P). exact P.
Qed.
Lemma pkcs1_sign_opens (h : hashing) (n e d : N) (msg : str) (k : nat) : rsa_numbers n e d -> has_bytes n k -> (digest_size h + 30 <= k)%nat ->
  pkcs1_signature h n e msg (pkcs1_sign (hf_of h) n d msg).
Proof.
  intros K B L. unfold pkcs1_sign. rewrite (bytes_length n k B). destruct (pkcs1_block_exists h msg k L) as [em P].
  rewrite (proj2 (pkcs1_block_iff h msg em k) P). exists em.
  pose proof (apply_opens n e d em K (pkcs1_block_small h msg em n k B P)) as O. split; [|exact O].
  destruct O as [B' _]. apply bytes_length in B, B'. replace (List.length (rsa_apply n d em)) with k by congruence. exact P.
Qed.
Lemma pkcs1_unique (h : hashing) (n e d : N) (msg tag tag' : str) : rsa_numbers n e d ->
  pkcs1_signature h n e msg tag -> pkcs1_signature h n e msg tag' -> tag = tag'.
Proof.
  intros K (em & P & O) (em' & P' & O'). assert (E : List.length tag = List.length tag').
  { destruct O as [B _], O' as [B' _]. apply bytes_length in B, B'. congruence. }
  rewrite E in P. assert (em = em') by exact (pkcs1_block_unique h msg em em' _ P P'). subst em'. now apply (opens_unique n e d tag tag' em).
Qed.
Lemma pkcs1_binds (h : hashing) (n e : N) (msg msg' tag : str) :
  pkcs1_signature h n e msg tag -> pkcs1_signature h n e msg' tag -> digest_of h msg = digest_of h msg'.
Proof.
  intros (em & P & O) (em' & P' & O'). assert (em = em').
  { apply (opens_block n e tag); [|exact O|exact O']. destruct P as (? & ? & _ & _ & _ & _ & P), P' as (? & ? & _ & _ & _ & _ & P'). congruence. }
  subst em'. now apply (pkcs1_block_digest h msg msg' em (List.length tag)).
Qed.
