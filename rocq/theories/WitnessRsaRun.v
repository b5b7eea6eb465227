(** Files and a request for C95. *)
From Verif Require Import SpecRsaRun SpecManual Samples RsaMore RsaRunFacts MockFacts LineFacts ReqFacts WitnessRsaKey.
Local Open Scope N_scope.

Definition pem_text (label b : str) : str :=
  $"-----BEGIN " ++ label ++ $"-----" ++ [ch_lf] ++ b64_bits b ++ [ch_lf] ++ $"-----END " ++ label ++ $"-----" ++ [ch_lf].
Lemma wrapped_more (t s : str) : wrapped t s -> forall x, wrapped (x ++ t) (x ++ s).
Proof. intros W x. induction x as [|c x IH]; [exact W|now constructor]. Qed.
Lemma pem_written (label b : str) : dashless label -> label <> [] -> Forall (fun c => code c < 128) label -> pem_file (pem_text label b) label b.
Proof.
  intros D N A. exists [], ([ch_lf] ++ b64_bits b ++ [ch_lf]), [ch_lf].
  split; [unfold pem_text; now rewrite <- !app_assoc|]. split; [intros []|]. do 3 (split; [assumption|]).
  apply wrap_lf. rewrite <- (app_nil_r (b64_bits b)) at 1. apply wrapped_more. repeat constructor.
Qed.
Definition some_public : str := der_write 48 (der_number some_n ++ der_number 65537).
Definition public_is (key : str) (n e : N) : bool := match ring_rsa_public key with Some (n', e') => (n' =? n) && (e' =? e) | None => false end.
Lemma public_numbers (key : str) (n e : N) : public_is key n e = true -> rsa_public_numbers key n e.
Proof.
  unfold public_is. destruct (ring_rsa_public key) as [[n' e']|] eqn:R; [|discriminate]. intro H. apply andb_prop in H. destruct H as [H1 H2].
  apply N.eqb_eq in H1, H2. subst. now apply ring_public_iff in R.
Qed.
Lemma some_public_checked : public_is some_public some_n 65537 = true.
Proof. vm_cast_no_check (eq_refl true). Qed.
Definition some_public_numbers : rsa_public_numbers some_public some_n 65537 := public_numbers _ _ _ some_public_checked.

Definition some_private_text : str := pem_text $"PRIVATE KEY" (pkcs8_file some_key_file).
Definition some_public_text : str := pem_text $"RSA PUBLIC KEY" some_public.
Definition some_files (f : str) : option str :=
  if str_eqb f $"private.pem" then Some some_private_text else if str_eqb f $"public.pem" then Some some_public_text else None.
Lemma private_written (b key : str) (n e d p q dp dq qinv : N) : short_file b /\ rsa_pkcs8 key b -> rsa_private_key n e d p q dp dq qinv key ->
  private_pem (pem_text $"PRIVATE KEY" b) n e d p q dp dq qinv.
Proof.
  intros [S W] K. exists $"PRIVATE KEY", b, key. split; [|auto]. apply pem_written; [intro H; repeat (destruct H as [H|H]; [discriminate|]); exact H|discriminate|repeat constructor].
Qed.
Lemma public_written (t : key_type) (b : str) (n e : N) : rsa_public_numbers b n e -> public_pem t (pem_text $"RSA PUBLIC KEY" b) n e.
Proof.
  intro K. exists $"RSA PUBLIC KEY", b. split; [|auto]. apply pem_written; [intro H; repeat (destruct H as [H|H]; [discriminate|]); exact H|discriminate|repeat constructor].
Qed.
Definition some_private_pem : private_pem some_private_text some_n 65537 some_d some_p some_q some_dp some_dq some_qinv :=
  private_written _ _ _ _ _ _ _ _ _ _ some_pkcs8 (proj2 some_file).
Definition some_public_pem (t : key_type) : public_pem t some_public_text some_n 65537 := public_written t _ _ _ some_public_numbers.

Definition run_stdin : str := $"GET / HTTP/1.1" ++ [ch_lf] ++ $"Host: example.com" ++ [ch_lf] ++ $"Date: today" ++ [ch_lf].
Definition run_world : world := rsa_world some_files (fun _ => None) (Crypto (fun _ _ _ m => m) (fun _ _ m t => str_eqb m t)) (fun _ => Ok s_url) false.
Lemma run_case : exists r, piped run_world run_stdin r /\ shown r
  /\ named_fields r $"host date" [($"host", $"example.com"); ($"date", $"today")] /\ honest_digest r.
Proof.
  eexists. split; [apply read_accepts; vm_compute; reflexivity|]. split; [apply shown_iff; repeat (constructor; [vm_compute; reflexivity|]); constructor|]. split.
  - exists [$"host"; $"date"]. split; [apply words_iff; vm_compute; reflexivity|]. split.
    + repeat (constructor; [apply spelled_iff; vm_compute; reflexivity|]). constructor.
    + repeat (constructor; [split; [vm_compute; reflexivity|apply plain_iff; vm_compute; reflexivity]|]). constructor.
  - intros dv H. vm_compute in H. discriminate.
Qed.
