(** Lengths of digests and tags. *)
From Verif Require Export Base64Facts Algorithm.

Lemma be_bytes_length (n : nat) (x : N) : List.length (be_bytes n x) = n.
Proof. induction n as [|n IH]; cbn [be_bytes List.length]; [reflexivity|now rewrite IH]. Qed.
Lemma compress_length (p : sha_params) (h blk : list N) : List.length h = 8%nat -> List.length (compress p h blk) = 8%nat.
Proof.
  intro H. unfold compress. rewrite map_length, combine_length, H.
  destruct (fold_left _ _ _) as [[[[[[[a b] c] d] e] f] g] i]. reflexivity.
Qed.
Lemma blocks_length (p : sha_params) (n : nat) : forall (bs : str) (h : list N),
  List.length h = 8%nat -> List.length (blocks p n bs h) = 8%nat.
Proof. induction n as [|n IH]; intros bs h H; cbn [blocks]; [exact H|]. apply IH. now apply compress_length. Qed.
Lemma flat_map_length {A B} (f : A -> list B) (k : nat) (l : list A) : (forall a, List.length (f a) = k) ->
  List.length (flat_map f l) = (List.length l * k)%nat.
Proof. intro H. induction l as [|a l IH]; cbn [flat_map List.length]; [reflexivity|]. rewrite app_length, H, IH. cbn. lia. Qed.
Lemma sha_length (p : sha_params) (m : str) : List.length (sh_h0 p) = 8%nat -> List.length (sha p m) = (8 * wbytes p)%nat.
Proof.
  intro H. unfold sha. rewrite (flat_map_length _ (wbytes p)) by (intro; apply be_bytes_length).
  now rewrite blocks_length.
Qed.
Lemma sha256_length (m : str) : List.length (sha256 m) = 32%nat.
Proof. apply (sha_length sha256_params). reflexivity. Qed.
Lemma sha512_length (m : str) : List.length (sha512 m) = 64%nat.
Proof. apply (sha_length sha512_params). reflexivity. Qed.
Lemma mac_sha256_length (key msg : str) : List.length (mac_sha256 key msg) = 32%nat.
Proof. apply sha256_length. Qed.
Lemma mac_sha512_length (key msg : str) : List.length (mac_sha512 key msg) = 64%nat.
Proof. apply sha512_length. Qed.
Lemma b64_length (s : str) : List.length (b64_encode s) = (4 * ((List.length s + 2) / 3))%nat.
Proof.
  induction s as [|a|a b|a b c r IH] using list_ind3; [reflexivity..|].
  cbn [b64_encode List.length]. rewrite IH.
  replace (Datatypes.S (Datatypes.S (Datatypes.S (List.length r))) + 2)%nat with (List.length r + 2 + 1 * 3)%nat by lia.
  rewrite Nat.div_add by lia. lia.
Qed.
Lemma hmac_text_lengths (key msg : str) (rnd : N) :
  List.length (sg_sign (hmac_sha256_signer key) rnd msg) = 44%nat /\ List.length (sg_sign (hmac_sha512_signer key) rnd msg) = 88%nat
  /\ List.length (dg_digest sha256_digest msg) = 44%nat /\ List.length (dg_digest sha512_digest msg) = 88%nat.
Proof.
  cbn [sg_sign hmac_sha256_signer hmac_sha512_signer dg_digest sha256_digest sha512_digest]. unfold hmac_http_sign.
  rewrite !b64_length, mac_sha256_length, mac_sha512_length, sha256_length, sha512_length. auto.
Qed.

(** ** HMAC keys *)
Lemma hmac_key_zeros (hash : str -> str) (block : nat) (key : str) (n : nat) : (List.length key + n <= block)%nat ->
  hmac_key hash block (key ++ repeat zero n) = hmac_key hash block key.
Proof.
  intro H. unfold hmac_key. rewrite app_length, repeat_length.
  destruct (Nat.ltb_spec block (List.length key + n)); [lia|]. destruct (Nat.ltb_spec block (List.length key)); [lia|].
  rewrite app_length, repeat_length, <- app_assoc, <- repeat_app. f_equal. f_equal. lia.
Qed.
Lemma hmac_key_long (hash : str -> str) (block : nat) (key : str) : (block < List.length key)%nat -> (List.length (hash key) <= block)%nat ->
  hmac_key hash block (hash key) = hmac_key hash block key.
Proof.
  intros H L. unfold hmac_key. destruct (Nat.ltb_spec block (List.length (hash key))); [lia|].
  destruct (Nat.ltb_spec block (List.length key)); [reflexivity|lia].
Qed.
Lemma hmac_padded_keys (key : str) (n : nat) (rnd : N) (msg sig : str) :
  ((List.length key + n <= 64)%nat ->
     sg_sign (hmac_sha256_signer (key ++ repeat zero n)) rnd msg = sg_sign (hmac_sha256_signer key) rnd msg
     /\ vf_verify (hmac_sha256_verifier (key ++ repeat zero n)) msg sig = vf_verify (hmac_sha256_verifier key) msg sig)
  /\ ((List.length key + n <= 128)%nat ->
     sg_sign (hmac_sha512_signer (key ++ repeat zero n)) rnd msg = sg_sign (hmac_sha512_signer key) rnd msg
     /\ vf_verify (hmac_sha512_verifier (key ++ repeat zero n)) msg sig = vf_verify (hmac_sha512_verifier key) msg sig).
Proof.
  cbn [sg_sign vf_verify hmac_sha256_signer hmac_sha256_verifier hmac_sha512_signer hmac_sha512_verifier].
  unfold hmac_http_sign, hmac_http_verify, mac_sha256, mac_sha512, hmac. split; intro H; now rewrite hmac_key_zeros.
Qed.
Lemma hmac_long_keys (key : str) (rnd : N) (msg sig : str) :
  ((64 < List.length key)%nat ->
     sg_sign (hmac_sha256_signer (sha256 key)) rnd msg = sg_sign (hmac_sha256_signer key) rnd msg
     /\ vf_verify (hmac_sha256_verifier (sha256 key)) msg sig = vf_verify (hmac_sha256_verifier key) msg sig)
  /\ ((128 < List.length key)%nat ->
     sg_sign (hmac_sha512_signer (sha512 key)) rnd msg = sg_sign (hmac_sha512_signer key) rnd msg
     /\ vf_verify (hmac_sha512_verifier (sha512 key)) msg sig = vf_verify (hmac_sha512_verifier key) msg sig).
Proof.
  cbn [sg_sign vf_verify hmac_sha256_signer hmac_sha256_verifier hmac_sha512_signer hmac_sha512_verifier].
  unfold hmac_http_sign, hmac_http_verify, mac_sha256, mac_sha512, hmac.
  split; intro H; rewrite hmac_key_long; auto; [rewrite sha256_length|rewrite sha512_length]; lia.
Qed.
