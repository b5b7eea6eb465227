(** The Secure Hash Standard (FIPS 180-4: SHA-256, SHA-512) and HMAC (RFC 2104), written from
    the standards: words are described bit by bit, the constants by the roots of primes
    they are taken from, padding and blocks by conditions.  Nothing here models code. *)
From Verif Require Export Str.
Local Open Scope N_scope.

(** Section 2.2.1 and 4.1: words of [w] bits; bit 0 is the least significant. *)
Definition bit (x : N) (i : nat) : bool := N.testbit x (N.of_nat i).
Fixpoint word (w : nat) (f : nat -> bool) : N :=
  match w with
  | O => 0
  | S k => word k f + (if f k then 2 ^ N.of_nat k else 0)
  end.
Definition rotated (w n : nat) (x : N) (i : nat) : bool := bit x (Nat.modulo (i + n) w).
Definition shifted (w n : nat) (x : N) (i : nat) : bool := Nat.ltb (i + n) w && bit x (i + n).

(** The two members of the family; the sizes of words (in bytes), the number of rounds and the
    amounts of rotation (sections 4.1.2, 4.1.3). *)
Record variant := Variant {
  v_bytes : nat; v_rounds : nat;
  v_Sigma0 : nat * nat * nat; v_Sigma1 : nat * nat * nat;
  v_sigma0 : nat * nat * nat; v_sigma1 : nat * nat * nat
}.
Definition SHA_256 : variant := Variant 4 64 (2, 13, 22)%nat (6, 11, 25)%nat (7, 18, 3)%nat (17, 19, 10)%nat.
Definition SHA_512 : variant := Variant 8 80 (28, 34, 39)%nat (14, 18, 41)%nat (1, 8, 7)%nat (19, 61, 6)%nat.

(** Section 4.2 and 5.3: constants are the first bits of the fractional parts of the cube and
    square roots of the first primes. *)
Definition primeb (n : nat) : bool := Nat.ltb 1 n && forallb (fun d => negb (Nat.eqb (Nat.modulo n d) 0)) (seq 2 (n - 2)).
Definition primes : list nat := filter primeb (seq 0 410).
Definition root_bits (k : N) (p w : nat) (x : N) : Prop :=
  exists r, r ^ k <= N.of_nat p * 2 ^ (k * N.of_nat w) < (r + 1) ^ k /\ x = r mod 2 ^ N.of_nat w.

Section Variant.
  Variable v : variant.
  Let w : nat := (8 * v_bytes v)%nat.
  Definition sum (a b : N) : N := (a + b) mod 2 ^ N.of_nat w.

  Definition Ch (x y z : N) : N := word w (fun i => if bit x i then bit y i else bit z i).
  Definition Maj (x y z : N) : N := word w (fun i => bit x i && bit y i || bit x i && bit z i || bit y i && bit z i).
  Definition Sigma (t : nat * nat * nat) (x : N) : N :=
    let '(a, b, c) := t in word w (fun i => xorb (rotated w a x i) (xorb (rotated w b x i) (rotated w c x i))).
  Definition sigma (t : nat * nat * nat) (x : N) : N :=
    let '(a, b, c) := t in word w (fun i => xorb (rotated w a x i) (xorb (rotated w b x i) (shifted w c x i))).

  (** Sections 4.2.2, 4.2.3. *)
  Definition constants (K : nat -> N) : Prop :=
    forall t, (t < v_rounds v)%nat -> root_bits 3 (nth t primes 0%nat) w (K t).
  (** Sections 5.3.3, 5.3.5. *)
  Definition initial (H : nat -> N) : Prop :=
    forall j, (j < 8)%nat -> root_bits 2 (nth j primes 0%nat) w (H j).

  (** Sections 6.2.2 and 6.4.2, step 1. *)
  Definition schedule (M W : nat -> N) : Prop :=
    forall t, (t < v_rounds v)%nat ->
      W t = if Nat.ltb t 16 then M t
            else sum (sum (sigma (v_sigma1 v) (W (t - 2)%nat)) (W (t - 7)%nat))
                     (sum (sigma (v_sigma0 v) (W (t - 15)%nat)) (W (t - 16)%nat)).

  (** Step 3: the working variables a..h before round [t] are [s t 0 .. s t 7]. *)
  Definition T1 (K W : nat -> N) (t : nat) (s : nat -> N) : N :=
    sum (sum (s 7%nat) (Sigma (v_Sigma1 v) (s 4%nat))) (sum (Ch (s 4%nat) (s 5%nat) (s 6%nat)) (sum (K t) (W t))).
  Definition T2 (s : nat -> N) : N := sum (Sigma (v_Sigma0 v) (s 0%nat)) (Maj (s 0%nat) (s 1%nat) (s 2%nat)).
  Definition round_step (K W : nat -> N) (t : nat) (s s' : nat -> N) : Prop :=
    s' 7%nat = s 6%nat /\ s' 6%nat = s 5%nat /\ s' 5%nat = s 4%nat /\ s' 4%nat = sum (s 3%nat) (T1 K W t s)
    /\ s' 3%nat = s 2%nat /\ s' 2%nat = s 1%nat /\ s' 1%nat = s 0%nat /\ s' 0%nat = sum (T1 K W t s) (T2 s).

  (** Steps 2 to 4: the hash value [H] before, [H'] after the block [M]. *)
  Definition block_step (K : nat -> N) (M H H' : nat -> N) : Prop :=
    exists (W : nat -> N) (s : nat -> nat -> N),
      schedule M W
      /\ (forall j, (j < 8)%nat -> s 0%nat j = H j)
      /\ (forall t, (t < v_rounds v)%nat -> round_step K W t (s t) (s (Datatypes.S t)))
      /\ (forall j, (j < 8)%nat -> H' j = sum (s (v_rounds v) j) (H j)).

  (** The number a string of bytes stands for, most significant byte first. *)
  Fixpoint value (s : str) : N :=
    match s with
    | [] => 0
    | c :: s' => code c * 256 ^ N.of_nat (List.length s') + value s'
    end.
  Definition nth_word (s : str) (i : nat) : N := value (firstn (v_bytes v) (skipn (i * v_bytes v) s)).

  (** Section 5.1: a bit 1, as few zeros as reach the end of a block, the length in bits as two
      words. *)
  Definition padded (m p : str) (n : nat) : Prop :=
    exists z len, p = m ++ [ascii_of_N 128] ++ repeat zero z ++ len
      /\ List.length len = (2 * v_bytes v)%nat /\ value len = 8 * N.of_nat (List.length m)
      /\ List.length p = (n * (16 * v_bytes v))%nat /\ (z < 16 * v_bytes v)%nat.

  (** Section 6: the digest of a message. *)
  Definition digest (m d : str) : Prop :=
    exists (p : str) (n : nat) (K : nat -> N) (H : nat -> nat -> N),
      padded m p n /\ constants K /\ initial (H 0%nat)
      /\ (forall i, (i < n)%nat -> block_step K (fun t => nth_word p (i * 16 + t)) (H i) (H (Datatypes.S i)))
      /\ List.length d = (8 * v_bytes v)%nat /\ (forall j, (j < 8)%nat -> nth_word d j = H n j).
End Variant.

(** RFC 2104, section 2: [hash] with blocks of [B] bytes; [tag] is the code of [text] under
    [key]. *)
Definition xor_with (n : N) (c : ascii) : ascii :=
  ascii_of_N (word 8 (fun i => xorb (bit n i) (bit (code c) i))).
Definition hmac_tag (hash : str -> str -> Prop) (B : nat) (key text tag : str) : Prop :=
  exists k inner,
    ((List.length key <= B)%nat /\ k = key ++ repeat zero (B - List.length key)
     \/ (B < List.length key)%nat /\ exists h, hash key h /\ k = h ++ repeat zero (B - List.length h))
    /\ hash (map (xor_with 0x36) k ++ text) inner
    /\ hash (map (xor_with 0x5c) k ++ inner) tag.
