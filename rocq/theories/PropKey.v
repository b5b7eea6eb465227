(** Key files: C54, C55, C56. *)
From Verif Require Import SpecKey KeyFacts KeyPipe SpecOpt SpecPem PemFacts.
Local Open Scope N_scope.

(** C54: the key in a file is the key loaded, whatever the type, the label, the text around
    the block and the line breaks. *)
Theorem C54_spki : forall (cy : crypto) (t : key_type) (text label der oid key : str), pem_file text label der -> spki oid key der ->
  verifier_for cy t key (verify_new_spki_pem cy t text) /\ verifier_for cy t key (verify_new_spki_der cy t der).
Proof. exact load_spki. Qed.
Print Assumptions C54_spki.
Theorem C54_pkcs1 : forall (cy : crypto) (t : key_type) (text label der : str), pem_file text label der ->
  verifier_for cy t der (verify_new_pkcs1_pem cy t text) /\ verifier_for cy t der (verify_new_pkcs1_der cy t der).
Proof. exact load_pkcs1. Qed.
Print Assumptions C54_pkcs1.
(** An RSA key in either form is the same verifier. *)
Theorem C54_same_key : forall (cy : crypto) (t : key_type) (text text' label label' der oid key : str),
  pem_file text label der -> spki oid key der -> pem_file text' label' key ->
  verify_new_spki_pem cy t text = verify_new_pkcs1_pem cy t text'
  /\ verify_new_spki_der cy t der = verify_new_pkcs1_der cy t key.
Proof. exact load_same. Qed.
Print Assumptions C54_same_key.
(** Private keys: the PEM constructors do with the contents what the DER constructors do,
    and these sign with the key ring reads. *)
Theorem C54_private_pem : forall (cy : crypto) (rk : ring_keys) (t : key_type) (text label der : str), pem_file text label der ->
  sign_new_pkcs8_pem cy rk t text = sign_new_pkcs8 cy rk t der /\ sign_new_pkcs1_pem cy rk t text = sign_new_pkcs1 cy rk t der.
Proof. exact load_private. Qed.
Print Assumptions C54_private_pem.
Theorem C54_private_keys : forall (cy : crypto) (rk : ring_keys) (t : key_type) (der key : str),
  (match t with EcdsaP256Sha256 => rk_ecdsa_pkcs8 rk der = Some key | _ => rk_rsa_pkcs8 rk der = Some key end ->
     signer_for cy t key (sign_new_pkcs8 cy rk t der))
  /\ (rk_rsa_der rk der = Some key -> signer_for cy t key (sign_new_pkcs1 cy rk t der)).
Proof. exact private_keys. Qed.
Print Assumptions C54_private_keys.

(** A small RSA key (modulus 33, exponent 3), the SPKI around it, and a PEM file. *)
Definition small_key : str := map ascii_of_N [48; 6; 2; 1; 33; 2; 1; 3].
Definition small_spki (oid : str) : str :=
  let alg := map ascii_of_N [6; N.of_nat (List.length oid)] ++ oid ++ map ascii_of_N [5; 0] in
  let body := map ascii_of_N [48; N.of_nat (List.length alg)] ++ alg ++ map ascii_of_N [3; 9; 0] ++ small_key in
  map ascii_of_N [48; N.of_nat (List.length body)] ++ body.
Definition small_pem (label b : str) : str :=
  $"my key" ++ [ch_lf] ++ $"-----BEGIN " ++ label ++ $"-----" ++ [ch_lf] ++ b64_bits b ++ [ch_cr; ch_lf] ++ $"-----END " ++ label ++ $"-----" ++ [ch_lf].
Lemma wrapped_app (t s : str) : wrapped t s -> forall x, wrapped (x ++ t) (x ++ s).
Proof. intros W x. induction x as [|c x IH]; [exact W|now constructor]. Qed.
Lemma small_file (label b : str) : dashless label -> label <> [] -> Forall (fun c => code c < 128) label -> pem_file (small_pem label b) label b.
Proof.
  intros D N A. exists ($"my key" ++ [ch_lf]), ([ch_lf] ++ b64_bits b ++ [ch_cr; ch_lf]), [ch_lf].
  split; [unfold small_pem; now rewrite <- !app_assoc|]. split; [intro H; repeat (destruct H as [H|H]; [discriminate|]); exact H|].
  do 3 (split; [assumption|]). apply wrap_lf. rewrite <- (app_nil_r (b64_bits b)) at 1. apply wrapped_app. repeat constructor.
Qed.
Ltac short_tag := eexists [_]; split; [apply length_short; reflexivity|reflexivity].
Example C54_case_key : rsa_public_key small_key.
Proof. exists [ascii_of_N 33], [ascii_of_N 3], (map ascii_of_N [2; 1; 33]), (map ascii_of_N [2; 1; 3]). repeat split; short_tag. Qed.
Example C54_case : spki oid_rsa small_key (small_spki oid_rsa)
  /\ pem_file (small_pem $"PUBLIC KEY" (small_spki oid_rsa)) $"PUBLIC KEY" (small_spki oid_rsa)
  /\ pem_file (small_pem $"RSA PUBLIC KEY" small_key) $"RSA PUBLIC KEY" small_key.
Proof.
  split; [|split; apply small_file; try discriminate; try (intro H; repeat (destruct H as [H|H]; [discriminate|]); exact H); repeat constructor].
  exists 0, (map ascii_of_N [6; 9] ++ oid_rsa), (map ascii_of_N [5; 0]), (ascii_of_N 0 :: small_key),
    (map ascii_of_N [48; 13; 6; 9] ++ oid_rsa ++ map ascii_of_N [5; 0]), (map ascii_of_N [3; 9; 0] ++ small_key).
  split; [short_tag|]. split; [split; [cbn; lia|]; exists (removelast oid_rsa), (ascii_of_N 1); split; reflexivity|].
  split; [right; exists 5, []; split; [lia|]; split; [discriminate|short_tag]|]. split; [short_tag|]. split; [reflexivity|]. split; [lia|].
  split; [discriminate|]. split; short_tag.
Qed.

(** C55: what is checked.  SPKI: the structure (exactly), but neither the PEM label nor the
    algorithm; PKCS#1: nothing but the PEM block. *)
Theorem C55_spki_structure : forall (cy : crypto) (t : key_type) (b : str),
  verify_new_spki_der cy t b <> None <-> exists oid key, spki oid key b.
Proof. exact spki_der_exact. Qed.
Print Assumptions C55_spki_structure.
Theorem C55_spki_pem_structure : forall (cy : crypto) (t : key_type) (text : str) (vf : http_verifier), verify_new_spki_pem cy t text = Some vf ->
  exists label pre data post der oid key, label <> []
    /\ text = pre ++ $"-----BEGIN " ++ label ++ $"-----" ++ data ++ $"-----END " ++ label ++ $"-----" ++ post
    /\ spki oid key der /\ verifier_for cy t key (Some vf).
Proof. exact spki_pem_needs. Qed.
Print Assumptions C55_spki_pem_structure.
(** The PEM constructors take exactly the texts that can be read, and do with the contents
    what the DER constructors do; a text has one reading, and PEM files have theirs. *)
Theorem C55_pem_exact : forall (cy : crypto) (rk : ring_keys) (t : key_type) (text : str),
  (forall label der, pem_reads text label der ->
     verify_new_pkcs1_pem cy t text = verify_new_pkcs1_der cy t der /\ verify_new_spki_pem cy t text = verify_new_spki_der cy t der
     /\ sign_new_pkcs8_pem cy rk t text = sign_new_pkcs8 cy rk t der /\ sign_new_pkcs1_pem cy rk t text = sign_new_pkcs1 cy rk t der)
  /\ ((forall label der, ~ pem_reads text label der) ->
     verify_new_pkcs1_pem cy t text = None /\ verify_new_spki_pem cy t text = None
     /\ sign_new_pkcs8_pem cy rk t text = None /\ sign_new_pkcs1_pem cy rk t text = None).
Proof. exact pem_constructors. Qed.
Print Assumptions C55_pem_exact.
Theorem C55_one_reading : forall text label label' der der' : str, pem_reads text label der -> pem_reads text label' der' -> label = label' /\ der = der'.
Proof. exact pem_reads_once. Qed.
Print Assumptions C55_one_reading.
Theorem C55_files_read : forall text label der : str, pem_file text label der -> pem_reads text label der.
Proof. exact pem_file_reads. Qed.
Print Assumptions C55_files_read.
(** A text that is no PEM file and still read: dashes before the block, no padding. *)
Example C55_loose_case :
  pem_reads ($"a--b-----BEGIN X-----  aa" ++ [" "%char; ch_lf] ++ $"aa" ++ [ch_lf] ++ $"aQ-----END X----- rest") $"X" (map ascii_of_N [105; 166; 154; 105])
  /\ forall label der, ~ pem_reads $"------BEGIN X-----aaaa-----END X-----" label der.
Proof.
  split; [apply pem_reads_iff; vm_compute; reflexivity|]. intros label der H. apply pem_reads_iff in H. vm_compute in H. discriminate.
Qed.
(** A public RSA key constructor takes an elliptic-curve key, or a file that says it is a
    private key, or no key at all. *)
Theorem C55_kind_of_key_refuted : forall cy : crypto,
  (exists text der key, pem_file text $"EC PUBLIC KEY" der /\ spki oid_ec key der /\ verify_new_spki_pem cy RsaSha256 text <> None)
  /\ (exists text der, pem_file text $"RSA PRIVATE KEY" der /\ verify_new_pkcs1_pem cy RsaSha256 text <> None)
  /\ verify_new_pkcs1_der cy RsaSha256 [] <> None.
Proof.
  intro cy.
  assert (S : spki oid_ec small_key (small_spki oid_ec)).
  { exists 0, (map ascii_of_N [6; 7] ++ oid_ec), (map ascii_of_N [5; 0]), (ascii_of_N 0 :: small_key),
      (map ascii_of_N [48; 11; 6; 7] ++ oid_ec ++ map ascii_of_N [5; 0]), (map ascii_of_N [3; 9; 0] ++ small_key).
    split; [short_tag|]. split; [split; [cbn; lia|]; exists (removelast oid_ec), (ascii_of_N 1); split; reflexivity|].
    split; [right; exists 5, []; split; [lia|]; split; [discriminate|short_tag]|]. split; [short_tag|]. split; [reflexivity|]. split; [lia|].
    split; [discriminate|]. split; short_tag. }
  split; [|split; [|discriminate]].
  - pose proof (small_file $"EC PUBLIC KEY" (small_spki oid_ec)) as F.
    exists (small_pem $"EC PUBLIC KEY" (small_spki oid_ec)), (small_spki oid_ec), small_key. split; [|split; [exact S|]].
    + apply F; try discriminate; try (intro H; repeat (destruct H as [H|H]; [discriminate|]); exact H); repeat constructor.
    + destruct (load_spki cy RsaSha256 (small_pem $"EC PUBLIC KEY" (small_spki oid_ec)) $"EC PUBLIC KEY" (small_spki oid_ec) oid_ec small_key) as [(vf & E & _) _]; [|exact S|rewrite E; discriminate].
      apply F; try discriminate; try (intro H; repeat (destruct H as [H|H]; [discriminate|]); exact H); repeat constructor.
  - assert (F : pem_file (small_pem $"RSA PRIVATE KEY" $"rubbish") $"RSA PRIVATE KEY" $"rubbish").
    { apply small_file; try discriminate; try (intro H; repeat (destruct H as [H|H]; [discriminate|]); exact H); repeat constructor. }
    exists (small_pem $"RSA PRIVATE KEY" $"rubbish"), $"rubbish". split; [exact F|].
    destruct (load_pkcs1 cy RsaSha256 _ _ _ F) as [(vf & E & _) _]. rewrite E. discriminate.
Qed.
Print Assumptions C55_kind_of_key_refuted.
(** The verifier then accepts nothing (for primitives that want a PKCS#1 key). *)
Theorem C55_wrong_key_accepts_nothing : forall (cy : crypto) (t : key_type) (der msg sig : str) (vf : http_verifier),
  wants_pkcs1 cy -> t <> EcdsaP256Sha256 -> verifier_for cy t der (Some vf) -> ~ rsa_public_key der -> vf_verify vf msg sig = false.
Proof. exact wrong_key_accepts_nothing. Qed.
Print Assumptions C55_wrong_key_accepts_nothing.
Definition picky : crypto := Crypto (fun _ k _ m => k ++ m) (fun _ k m t => str_eqb k small_key && str_eqb t (k ++ m)).
Example C55_case : wants_pkcs1 picky /\ ~ rsa_public_key $"rubbish"
  /\ vf_verify (ring_verifier picky RsaSha512 small_key) $"m" (sg_sign (ring_signer picky RsaSha512 small_key) 0 $"m") = true.
Proof.
  split; [|split; [|vm_compute; reflexivity]].
  - intros s key msg tag _ H. cbn [cy_verify picky] in H. apply andb_true_iff in H. destruct H as [H _].
    apply StrFacts.str_eqb_eq in H. subst key. exact C54_case_key.
  - intros (n & e & m & x & _ & _ & (l & _ & H)). discriminate H.
Qed.
(** The openssl back end has no constructor for PKCS#8 PEM files: the one of that name
    rejects every file that starts with a PEM block. *)
Theorem C55_openssl_pkcs8_pem_refuted : forall (cy : crypto) (ok : openssl_keys) (t : key_type) (text : str),
  wants_der (ok_pkcs8 ok) -> openssl_new_pkcs8_pem cy ok t ($"-----BEGIN " ++ text) = None.
Proof. exact openssl_pem_rejected. Qed.
Print Assumptions C55_openssl_pkcs8_pem_refuted.
Example C55_openssl_case : let p := fun b => match b with c :: _ => if Ascii.eqb c (ascii_of_N 48) then Some b else None | [] => None end in
  wants_der p /\ openssl_new_pkcs8_pem picky (OpensslKeys p p p p p) RsaSha256 small_key <> None.
Proof.
  split; [|discriminate]. intros b k H. destruct b as [|c b]; [discriminate|]. destruct (Ascii.eqb_spec c (ascii_of_N 48)) as [->|]; [eauto|discriminate].
Qed.

(** C56: the validator.  PKCS#1 public keys work with every algorithm it loads keys for ... *)
Theorem C56_pkcs1_partial : forall (w : world) (o : opt) (a : str) (t : key_type) (text label der : str),
  op_algorithm o = Some a -> loads a t -> key_file w (op_public_key o) text -> pem_file text label der -> rsa_public_key der ->
  exists c vf, verification_config_of w o = Ok c /\ vc_keys c (or_else [] (op_key_id o)) = [vf] /\ verifier_for (w_crypto w) t der (Some vf).
Proof. exact validator_pkcs1. Qed.
Print Assumptions C56_pkcs1_partial.
(** ... SPKI keys with one ... *)
Theorem C56_spki_partial : forall (w : world) (o : opt) (text label oid key der : str),
  op_algorithm o = Some $"rsa-v1_5-sha256" -> key_file w (op_public_key o) text -> pem_file text label der -> spki oid key der ->
  exists c vf, verification_config_of w o = Ok c /\ vc_keys c (or_else [] (op_key_id o)) = [vf] /\ verifier_for (w_crypto w) RsaSha256 key (Some vf).
Proof. exact validator_spki. Qed.
Print Assumptions C56_spki_partial.
(** ... and with the others they are loaded without complaint and reject everything. *)
Theorem C56_spki_refuted : forall (w : world) (o : opt) (a : str) (t : key_type) (text label oid key der : str),
  op_mode o = MVerify -> op_algorithm o = Some a -> loads a t -> a <> $"rsa-v1_5-sha256" ->
  key_file w (op_public_key o) text -> pem_file text label der -> spki oid key der -> wants_pkcs1 (w_crypto w) ->
  (exists c, verification_config_of w o = Ok c) /\ forall stdin out se ve, run w o stdin se ve <> Done (Ok out).
Proof. exact validator_spki_rejected. Qed.
Print Assumptions C56_spki_refuted.
Example C56_case :
  let text := small_pem $"PUBLIC KEY" (small_spki oid_rsa) in
  let w := World (fun _ => Some text) (RingKeys Some Some Some) picky (fun _ => Err RelativeUrlWithoutBase) false in
  let o := Opt MVerify None None (Some $"k1") None (Some $"key.pem") None (Some $"rsa-pss-sha512") None None None in
  op_algorithm o = Some $"rsa-pss-sha512" /\ loads $"rsa-pss-sha512" RsaPssSha512 /\ key_file w (op_public_key o) text
  /\ pem_file text $"PUBLIC KEY" (small_spki oid_rsa) /\ spki oid_rsa small_key (small_spki oid_rsa) /\ wants_pkcs1 (w_crypto w).
Proof.
  split; [reflexivity|]. split; [constructor|]. split; [now exists $"key.pem"|]. split; [exact (proj1 (proj2 C54_case))|].
  split; [exact (proj1 C54_case)|]. exact (proj1 C55_case).
Qed.
