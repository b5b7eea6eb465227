(** Key files of the validator. *)
From Verif Require Import SpecKey KeyFacts OptFacts PipeFacts.

Lemma verifier_for_some (cy : crypto) (t : key_type) (key : str) (o : option http_verifier) :
  verifier_for cy t key o -> exists vf, o = Some vf /\ verifier_for cy t key (Some vf).
Proof. intros (vf & -> & H). exists vf. split; [reflexivity|]. exists vf. auto. Qed.
Lemma verify_key (w : world) (o : opt) (a : str) (t : key_type) (text : str) (vf : http_verifier) :
  op_algorithm o = Some a -> loads a t -> key_file w (op_public_key o) text -> public_key w t text (Some vf) ->
  exists c, verification_config_of w o = Ok c /\ forall id, vc_keys c id = if str_eqb (or_else [] (op_key_id o)) id then [vf] else [].
Proof.
  intros A L K P. destruct (verify_opts_sound w o) as (y & V & Ag).
  assert (Y : y = Ok (one_key (or_else [] (op_key_id o)) vf)) by (apply (verify_opts_fun w o _ _ V); now apply (verify_ok w o a t text vf)).
  subst y. destruct (verification_config_of w o) as [c|e]; [|contradiction]. destruct Ag as (Vk & _). exists c. split; [reflexivity|]. exact Vk.
Qed.
Lemma validator_pkcs1 (w : world) (o : opt) (a : str) (t : key_type) (text label der : str) :
  op_algorithm o = Some a -> loads a t -> key_file w (op_public_key o) text -> pem_file text label der -> rsa_public_key der ->
  exists c vf, verification_config_of w o = Ok c /\ vc_keys c (or_else [] (op_key_id o)) = [vf] /\ verifier_for (w_crypto w) t der (Some vf).
Proof.
  intros A L K F R. destruct (verifier_for_some _ _ _ _ (proj1 (load_pkcs1 (w_crypto w) t _ _ _ F))) as (vf & E & V).
  destruct (verify_key w o a t text vf A L K) as (c & C & Kc).
  - rewrite <- E. inversion L; subst; try (apply public_pkcs1; discriminate). apply public_fallback.
    unfold verify_new_spki_pem, pem_contents. rewrite (pem_parse_file _ _ _ F). cbn [option_map snd andThen].
    destruct (spki_key der) as [key|] eqn:S; [|reflexivity]. apply spki_key_iff in S. destruct S as [oid S]. now apply spki_not_pkcs1 in S.
  - exists c, vf. split; [exact C|]. split; [|exact V]. rewrite Kc. now rewrite str_eqb_refl.
Qed.
Lemma validator_spki (w : world) (o : opt) (text label oid key der : str) :
  op_algorithm o = Some $"rsa-v1_5-sha256" -> key_file w (op_public_key o) text -> pem_file text label der -> spki oid key der ->
  exists c vf, verification_config_of w o = Ok c /\ vc_keys c (or_else [] (op_key_id o)) = [vf] /\ verifier_for (w_crypto w) RsaSha256 key (Some vf).
Proof.
  intros A K F S. destruct (verifier_for_some _ _ _ _ (proj1 (load_spki (w_crypto w) RsaSha256 _ _ _ _ _ F S))) as (vf & E & V).
  destruct (verify_key w o _ RsaSha256 text vf A loads_15_256 K (public_spki _ _ _ E)) as (c & C & Kc).
  exists c, vf. split; [exact C|]. split; [|exact V]. rewrite Kc. now rewrite str_eqb_refl.
Qed.
Lemma validator_spki_rejected (w : world) (o : opt) (a : str) (t : key_type) (text label oid key der : str) :
  op_mode o = MVerify -> op_algorithm o = Some a -> loads a t -> a <> $"rsa-v1_5-sha256" ->
  key_file w (op_public_key o) text -> pem_file text label der -> spki oid key der -> wants_pkcs1 (w_crypto w) ->
  (exists c, verification_config_of w o = Ok c) /\ forall stdin out se ve, run w o stdin se ve <> Done (Ok out).
Proof.
  intros M A L Na K F S W. destruct (verifier_for_some _ _ _ _ (proj1 (load_pkcs1 (w_crypto w) t _ _ _ F))) as (vf & E & V).
  assert (P : public_key w t text (Some vf)).
  { rewrite <- E. apply public_pkcs1. intros ->. inversion L. congruence. }
  destruct (verify_key w o a t text vf A L K P) as (c & C & Kc). split; [eauto|].
  intros stdin out se ve H. apply run_read in H. destruct H as (r & _ & H). rewrite M, C in H.
  destruct H as (x & Vf & Ex). destruct x as [[[] kid]|]; [|discriminate].
  apply accepted_signature in Vf. destruct Vf as (cc & sig & _ & (base & k & _ & I & X)). rewrite Kc in I.
  destruct (str_eqb _ _); [|destruct I]. destruct I as [<-|[]].
  pose proof (wrong_key_accepts_nothing (w_crypto w) t der base sig vf W) as Wk. rewrite Wk in X; [discriminate| |exact V|].
  - intros ->. inversion L.
  - now apply spki_not_pkcs1 in S.
Qed.
