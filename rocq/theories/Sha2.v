(** SHA-256, SHA-512 (FIPS 180-4) and HMAC (RFC 2104): the [sha2] 0.10 and [hmac]
    0.12 crates behind src/algorithm.rs:51-114.  Dependencies, modelled from the
    standards; checked on test vectors in Tests.v. *)
From Verif Require Export Str.
Local Open Scope N_scope.

(** Parameters of one member of the family. *)
Record sha_params := ShaParams {
  sh_w : N;                                  (* word size in bits *)
  sh_k : list N;                             (* round constants *)
  sh_h0 : list N;                            (* initial state *)
  sh_S0 : N * N * N; sh_S1 : N * N * N;      (* rotations of the big sigmas *)
  sh_s0 : N * N * N; sh_s1 : N * N * N       (* two rotations and a shift *)
}.

Section Sha.
  Variable p : sha_params.
  Let w := sh_w p.
  Let modw := 2 ^ w.

  (** Word operations and functions of FIPS 180-4, sections 2.2.2 and 4.1.2-4.1.3. *)
  Definition wadd (a b : N) : N := (a + b) mod modw.
  Definition wrotr (n x : N) : N := N.lor (N.shiftr x n) (N.shiftl x (w - n) mod modw).
  Definition wnot (x : N) : N := N.lxor x (modw - 1).
  Definition big_sigma (t : N * N * N) (x : N) : N :=
    let '(a, b, c) := t in N.lxor (wrotr a x) (N.lxor (wrotr b x) (wrotr c x)).
  Definition small_sigma (t : N * N * N) (x : N) : N :=
    let '(a, b, c) := t in N.lxor (wrotr a x) (N.lxor (wrotr b x) (N.shiftr x c)).
  Definition ch (x y z : N) : N := N.lxor (N.land x y) (N.land (wnot x) z).
  Definition maj (x y z : N) : N := N.lxor (N.land x y) (N.lxor (N.land x z) (N.land y z)).

  (** Message schedule: [sched n ws] extends the reversed list of words by [n]. *)
  Fixpoint sched (n : nat) (ws : list N) : list N :=
    match n with
    | O => ws
    | S n' =>
        let g i := nth i ws 0 in
        sched n' (wadd (wadd (small_sigma (sh_s1 p) (g 1%nat)) (g 6%nat))
                       (wadd (small_sigma (sh_s0 p) (g 14%nat)) (g 15%nat)) :: ws)
    end.

  (** One round: state (a..h), constant and schedule word. *)
  Definition round (st : N * N * N * N * N * N * N * N) (kw : N * N) :=
    let '(a, b, c, d, e, f, g, h) := st in
    let t1 := wadd (wadd h (big_sigma (sh_S1 p) e)) (wadd (ch e f g) (wadd (fst kw) (snd kw))) in
    let t2 := wadd (big_sigma (sh_S0 p) a) (maj a b c) in
    (wadd t1 t2, a, b, c, wadd d t1, e, f, g).

  (** The eight working variables of a state, and back. *)
  Definition st_of (h : list N) : N * N * N * N * N * N * N * N :=
    let g i := nth i h 0 in
    (g 0%nat, g 1%nat, g 2%nat, g 3%nat, g 4%nat, g 5%nat, g 6%nat, g 7%nat).
  Definition list_of (s : N * N * N * N * N * N * N * N) : list N :=
    let '(a, b, c, d, e, f, g, h) := s in [a; b; c; d; e; f; g; h].

  (** Compression of one block of 16 words. *)
  Definition compress (h : list N) (blk : list N) : list N :=
    let ws := rev (sched (List.length (sh_k p) - 16)%nat (rev blk)) in
    let s := fold_left round (combine (sh_k p) ws) (st_of h) in
    map (fun ab => wadd (fst ab) (snd ab)) (combine h (list_of s)).

  (** Bytes per word, per block. *)
  Definition wbytes : nat := N.to_nat (w / 8).
  Definition block_bytes : nat := (16 * wbytes)%nat.

  (** Big-endian words of a block. *)
  Definition word_of (bs : str) : N := fold_left (fun a c => a * 256 + code c) bs 0.
  Fixpoint words (n : nat) (bs : str) : list N :=
    match n with O => [] | S n' => word_of (firstn wbytes bs) :: words n' (skipn wbytes bs) end.

  (** Big-endian bytes of [x], [n] of them. *)
  Fixpoint be_bytes (n : nat) (x : N) : str :=
    match n with O => [] | S n' => ascii_of_N ((x / 256 ^ N.of_nat n') mod 256) :: be_bytes n' x end.

  (** Padding: 0x80, zeros, bit length in two words. *)
  Definition pad_zeros (len : N) : N :=
    let b := N.of_nat block_bytes in
    (b - (len + 1 + N.of_nat (2 * wbytes)%nat) mod b) mod b.
  Definition pad (m : str) : str :=
    let len := N.of_nat (List.length m) in
    m ++ ascii_of_N 128 :: List.repeat zero (N.to_nat (pad_zeros len)) ++ be_bytes (2 * wbytes) (8 * len).

  (** All blocks of a padded message, in order. *)
  Fixpoint blocks (n : nat) (bs : str) (h : list N) : list N :=
    match n with
    | O => h
    | S n' => blocks n' (skipn block_bytes bs) (compress h (words 16 (firstn block_bytes bs)))
    end.

  (** The digest of a message: the final state as bytes. *)
  Definition sha (m : str) : str :=
    let pm := pad m in
    flat_map (be_bytes wbytes) (blocks (Nat.div (List.length pm) block_bytes) pm (sh_h0 p)).
End Sha.

(** FIPS 180-4, sections 4.2.2 and 5.3.3. *)
Definition sha256_params : sha_params := ShaParams 32
  [ 0x428a2f98; 0x71374491; 0xb5c0fbcf; 0xe9b5dba5;
    0x3956c25b; 0x59f111f1; 0x923f82a4; 0xab1c5ed5;
    0xd807aa98; 0x12835b01; 0x243185be; 0x550c7dc3;
    0x72be5d74; 0x80deb1fe; 0x9bdc06a7; 0xc19bf174;
    0xe49b69c1; 0xefbe4786; 0x0fc19dc6; 0x240ca1cc;
    0x2de92c6f; 0x4a7484aa; 0x5cb0a9dc; 0x76f988da;
    0x983e5152; 0xa831c66d; 0xb00327c8; 0xbf597fc7;
    0xc6e00bf3; 0xd5a79147; 0x06ca6351; 0x14292967;
    0x27b70a85; 0x2e1b2138; 0x4d2c6dfc; 0x53380d13;
    0x650a7354; 0x766a0abb; 0x81c2c92e; 0x92722c85;
    0xa2bfe8a1; 0xa81a664b; 0xc24b8b70; 0xc76c51a3;
    0xd192e819; 0xd6990624; 0xf40e3585; 0x106aa070;
    0x19a4c116; 0x1e376c08; 0x2748774c; 0x34b0bcb5;
    0x391c0cb3; 0x4ed8aa4a; 0x5b9cca4f; 0x682e6ff3;
    0x748f82ee; 0x78a5636f; 0x84c87814; 0x8cc70208;
    0x90befffa; 0xa4506ceb; 0xbef9a3f7; 0xc67178f2 ]
  [ 0x6a09e667; 0xbb67ae85; 0x3c6ef372; 0xa54ff53a;
    0x510e527f; 0x9b05688c; 0x1f83d9ab; 0x5be0cd19 ]
  (2, 13, 22) (6, 11, 25) (7, 18, 3) (17, 19, 10).

(** FIPS 180-4, sections 4.2.3 and 5.3.5. *)
Definition sha512_params : sha_params := ShaParams 64
  [ 0x428a2f98d728ae22; 0x7137449123ef65cd; 0xb5c0fbcfec4d3b2f; 0xe9b5dba58189dbbc;
    0x3956c25bf348b538; 0x59f111f1b605d019; 0x923f82a4af194f9b; 0xab1c5ed5da6d8118;
    0xd807aa98a3030242; 0x12835b0145706fbe; 0x243185be4ee4b28c; 0x550c7dc3d5ffb4e2;
    0x72be5d74f27b896f; 0x80deb1fe3b1696b1; 0x9bdc06a725c71235; 0xc19bf174cf692694;
    0xe49b69c19ef14ad2; 0xefbe4786384f25e3; 0x0fc19dc68b8cd5b5; 0x240ca1cc77ac9c65;
    0x2de92c6f592b0275; 0x4a7484aa6ea6e483; 0x5cb0a9dcbd41fbd4; 0x76f988da831153b5;
    0x983e5152ee66dfab; 0xa831c66d2db43210; 0xb00327c898fb213f; 0xbf597fc7beef0ee4;
    0xc6e00bf33da88fc2; 0xd5a79147930aa725; 0x06ca6351e003826f; 0x142929670a0e6e70;
    0x27b70a8546d22ffc; 0x2e1b21385c26c926; 0x4d2c6dfc5ac42aed; 0x53380d139d95b3df;
    0x650a73548baf63de; 0x766a0abb3c77b2a8; 0x81c2c92e47edaee6; 0x92722c851482353b;
    0xa2bfe8a14cf10364; 0xa81a664bbc423001; 0xc24b8b70d0f89791; 0xc76c51a30654be30;
    0xd192e819d6ef5218; 0xd69906245565a910; 0xf40e35855771202a; 0x106aa07032bbd1b8;
    0x19a4c116b8d2d0c8; 0x1e376c085141ab53; 0x2748774cdf8eeb99; 0x34b0bcb5e19b48a8;
    0x391c0cb3c5c95a63; 0x4ed8aa4ae3418acb; 0x5b9cca4f7763e373; 0x682e6ff3d6b2b8a3;
    0x748f82ee5defb2fc; 0x78a5636f43172f60; 0x84c87814a1f0ab72; 0x8cc702081a6439ec;
    0x90befffa23631e28; 0xa4506cebde82bde9; 0xbef9a3f7b2c67915; 0xc67178f2e372532b;
    0xca273eceea26619c; 0xd186b8c721c0c207; 0xeada7dd6cde0eb1e; 0xf57d4f7fee6ed178;
    0x06f067aa72176fba; 0x0a637dc5a2c898a6; 0x113f9804bef90dae; 0x1b710b35131c471b;
    0x28db77f523047d84; 0x32caab7b40c72493; 0x3c9ebe0a15c9bebc; 0x431d67c49c100d4c;
    0x4cc5d4becb3e42b6; 0x597f299cfc657e2a; 0x5fcb6fab3ad6faec; 0x6c44198c4a475817 ]
  [ 0x6a09e667f3bcc908; 0xbb67ae8584caa73b; 0x3c6ef372fe94f82b; 0xa54ff53a5f1d36f1;
    0x510e527fade682d1; 0x9b05688c2b3e6c1f; 0x1f83d9abfb41bd6b; 0x5be0cd19137e2179 ]
  (28, 34, 39) (14, 18, 41) (1, 8, 7) (19, 61, 6).

(** [Sha256::digest], [Sha512::digest]. *)
Definition sha256 : str -> str := sha sha256_params.
Definition sha512 : str -> str := sha sha512_params.

(** ** HMAC ([Hmac::new_from_slice], [update], [finalize]) *)
Definition xor_byte (x : N) (c : ascii) : ascii := ascii_of_N (N.lxor x (code c)).

(** The key padded to the block size: hashed first when longer than a block. *)
Definition hmac_key (hash : str -> str) (block : nat) (key : str) : str :=
  let k := if Nat.ltb block (List.length key) then hash key else key in
  k ++ List.repeat zero (block - List.length k)%nat.

(** RFC 2104: inner and outer hash. *)
Definition hmac (hash : str -> str) (block : nat) (key msg : str) : str :=
  let k := hmac_key hash block key in
  hash (map (xor_byte 92) k ++ hash (map (xor_byte 54) k ++ msg)).
