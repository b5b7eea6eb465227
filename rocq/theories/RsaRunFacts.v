(** The validator with RSA keys in files. *)
From Verif Require Export SpecRsaRun SpecManual.
From Verif Require Import StrFacts SpecFacts AlgFacts KeyFacts MakeFacts RsaMore RsaKeyFacts RsaKeyCrate KeyPipe PipeFacts RunFacts ReqFacts CliMore ManualFacts.
Local Open Scope N_scope.

Lemma public_once (key : str) (n e n' e' : N) : rsa_public_numbers key n e -> rsa_public_numbers key n' e' -> n = n' /\ e = e'.
Proof.
  intros (nb & eb & x & y & P & Q & X & Y & T) (nb' & eb' & x' & y' & P' & Q' & X' & Y' & T').
  destruct (tagged_prefix 48 _ _ _ _ [] [] ltac:(lia) T T' eq_refl) as [E _].
  destruct (tagged_prefix 2 _ _ _ _ _ _ ltac:(lia) X X' E) as [<- E2]. rewrite <- (app_nil_r y), <- (app_nil_r y') in E2.
  destruct (tagged_prefix 2 _ _ _ _ _ _ ltac:(lia) Y Y' E2) as [<- _].
  apply der_positive_iff in P, Q, P', Q'. split; congruence.
Qed.
Lemma loads_once (a : str) (t t' : key_type) : loads a t -> loads a t' -> t = t'.
Proof. intros A B. inversion A; subst; inversion B; reflexivity. Qed.
Lemma loads_rsa (a : str) (t : key_type) : loads a t -> t <> EcdsaP256Sha256.
Proof. intro A. inversion A; discriminate. Qed.
Lemma tag_iff (ecdsa : crypto) (t : key_type) (public msg tag : str) (n e : N) : t <> EcdsaP256Sha256 -> rsa_public_numbers public n e ->
  (cy_verify (ring_rsa_over ecdsa) (scheme_of t) public msg tag = true <-> ring_takes n e /\ rsa_tag t n e msg tag).
Proof.
  intros T Pk. cbn [ring_rsa_over cy_verify]. destruct (ring_rsa_public public) as [[n' e']|] eqn:R.
  - pose proof R as R'. apply ring_public_iff in R'. destruct R' as [Pk' K]. destruct (public_once _ _ _ _ _ Pk Pk') as [<- <-].
    assert (Z : n <> 0) by (destruct K as (_ & [L _] & _); intro H; rewrite H in L; now vm_compute in L).
    pose proof (rsa_verify_iff (fun _ => None) ring_rsa_public ecdsa public n e msg tag R Z) as V. destruct (V With_SHA256) as [V1 V2]. destruct (V With_SHA512) as [V3 V4].
    cbn [pkcs1_with pss_with] in V1, V2, V3, V4.
    destruct t; cbn [scheme_of rsa_tag]; [rewrite V1|rewrite V3|rewrite V4|rewrite V4|now elim T]; tauto.
  - split.
    + intro H. rewrite rsa_verify_none in H; [discriminate|now apply rsa_scheme_of|exact R].
    + intros [K _]. rewrite (proj2 (ring_public_iff public n e) (conj Pk K)) in R. discriminate.
Qed.
(** The verifier the command makes from a file. *)
Lemma public_made (w : world) (t : key_type) (text : str) (n e : N) : public_pem t text n e ->
  exists public vf, rsa_public_numbers public n e /\ verifies_by (w_crypto w) (scheme_of t) public vf /\ forall o, public_key w t text o <-> o = Some vf.
Proof.
  intros (label & b & F & [N|(-> & oid & key & S & N)]).
  - destruct (load_pkcs1 (w_crypto w) t text label b F) as [(vf & E & _ & V) _]. exists b, vf. split; [exact N|]. split; [exact V|].
    assert (Sp : t = RsaSha256 -> verify_new_spki_pem (w_crypto w) RsaSha256 text = None).
    { intros _. unfold verify_new_spki_pem, pem_contents. rewrite (pem_parse_file _ _ _ F). cbn [option_map snd andThen].
      destruct (spki_key b) as [k|] eqn:K; [|reflexivity]. apply spki_key_iff in K. destruct K as [oid K]. elim (spki_not_pkcs1 _ _ _ K).
      destruct N as (nb & eb & x & y & _ & _ & X & Y & T). now exists nb, eb, x, y. }
    intro o. split.
    + intro P. inversion P; subst; [|exact E|exact E]. rewrite (Sp eq_refl) in H. discriminate.
    + intros ->. rewrite <- E. destruct t; try (apply public_pkcs1; discriminate). apply public_fallback. now apply Sp.
  - destruct (load_spki (w_crypto w) RsaSha256 text label b oid key F S) as [(vf & E & _ & V) _]. exists key, vf. split; [exact N|]. split; [exact V|].
    intro o. split.
    + intro P. inversion P; subst; [congruence|congruence|contradiction].
    + intros ->. now constructor.
Qed.

Section World.
  Context (files : str -> option str) (ec : str -> option str) (ecdsa : crypto) (parse : url_parser) (trace : bool).
  Let w := rsa_world files ec ecdsa parse trace.

  Lemma rsa_pair (os ov : opt) (a : str) (t : key_type) (f g stext vtext : str) (n e d p q dp dq qinv rnd : N) (sk : http_signer) :
    op_algorithm os = Some a -> op_algorithm ov = Some a -> loads a t ->
    op_private_key os = Some f -> files f = Some stext -> private_pem stext n e d p q dp dq qinv -> rsa_exponents e p q dp dq ->
    op_public_key ov = Some g -> files g = Some vtext -> public_pem t vtext n e ->
    sign_new_pkcs8_pem (w_crypto w) (w_ring w) t stext = Some sk -> key_pair w os ov rnd.
  Proof.
    intros As Av L Ps Fs (label & b & key & F & Sh & W & K) X Pv Fv Pub M. pose proof (loads_rsa a t L) as T.
    destruct (public_made w t vtext n e Pub) as (public & vf & Pk & V & Made).
    exists a, t, stext, sk, vtext, vf. split; [exact As|]. split; [exact Av|]. split; [exact L|]. split; [now exists f|]. split; [exact M|].
    split; [now exists g|]. split; [now apply Made|].
    intro m. pose proof M as M'. rewrite (proj1 (load_private _ _ t stext label b F)) in M'.
    cbn [w rsa_world w_crypto w_ring] in M', V |- *. apply (rsa_made_iff ecdsa ec t b T) in M'. destruct M' as (key' & -> & _ & W' & G).
    assert (E : key' = key).
    { apply rsa_wrapped in W, W'. pose proof (proj2 (unwrap_iff _ _ _) (conj W Sh)) as U. pose proof (proj2 (unwrap_iff _ _ _) (conj W' Sh)) as U'. congruence. }
    subst key'. assert (Sk : short_file key) by (apply rsa_wrapped in W; exact (wrapped_shorter _ _ _ W Sh)).
    destruct G as (n' & e' & d' & p' & q' & dp' & dq' & qinv' & K' & P).
    pose proof (numbers_unique key _ _ _ _ _ _ _ _ _ _ _ _ _ _ _ _ Sk K K') as Q. injection Q as <- <- <- <- <- <- <- <-.
    apply V. exists (cy_sign (ring_rsa_over ecdsa) (scheme_of t) key rnd m). split; [apply ring_sign_is|].
    pose proof (key_signs key n e d p q dp dq qinv Sk K P (scheme_of t) rnd m (rsa_scheme_of t T) X) as H.
    replace (cy_sign (ring_rsa_over ecdsa) (scheme_of t) key rnd m) with (match ring_rsa_sign (scheme_of t) key rnd m with Some tag => tag | None => [] end)
      by (destruct t; try reflexivity; now elim T).
    destruct (ring_rsa_sign (scheme_of t) key rnd m) as [tag|] eqn:Y; [|contradiction].
    exact (key_verifies key n e d p q dp dq qinv Sk K P ecdsa (scheme_of t) public rnd m tag (rsa_scheme_of t T) Pk Y).
  Qed.

  Lemma rsa_pipe (os ov : opt) (a : str) (t : key_type) (f g stext vtext : str) (n e d p q dp dq qinv : N)
      (stdin out : str) (se se' : sign_env) (ve ve' : verify_env) :
    op_algorithm os = Some a -> op_algorithm ov = Some a -> loads a t ->
    op_private_key os = Some f -> files f = Some stext -> private_pem stext n e d p q dp dq qinv -> rsa_exponents e p q dp dq ->
    op_public_key ov = Some g -> files g = Some vtext -> public_pem t vtext n e ->
    op_mode os = MSign -> run w os stdin se ve = Done (Ok out) -> op_mode ov = MVerify -> op_in_file ov = None ->
    op_label os = None \/ op_label os = Some $"sig" -> op_key_id ov = op_key_id os ->
    sys_clock_ok (se_sys se) -> sys_clock_ok (ve_sys ve') ->
    (forall x, op_created os = Some x -> (x <= seconds (ve_sys ve'))%Z) ->
    (forall x, op_expires os = Some x -> (seconds (ve_sys ve') <= x)%Z) ->
    (forall cs q, given os (Some cs) -> In q cs -> ~ signature_header q) ->
    (forall r, run_request w os stdin r -> honest_digest r) ->
    run w ov out se' ve' = Done (Ok []).
  Proof.
    intros As Av L Ps Fs Pp X Pv Fv Pub Ms Rs Mv Iv Lb Ki S S' Cr Ex Ns Hd. eapply (pipe w os ov stdin out se se' ve ve'); try eassumption.
    pose proof Rs as R. apply (run_sign w os stdin se ve _ S Ms) in R.
    assert (O : exists c, sign_opts w os (Ok c)) by (inversion R; subst; eauto). destruct O as [c O].
    inversion O as [a' t' pem key oc A' L' Kf Mk G| | | | | | |]; subst.
    assert (a' = a) by congruence. subst a'. pose proof (loads_once _ _ _ L L') as E. subst t'.
    destruct Kf as (f' & Ef & Rf). assert (f' = f) by congruence. subst f'. cbn [w rsa_world w_read] in Rf. assert (pem = stext) by congruence. subst pem.
    exact (rsa_pair os ov a t f g stext vtext n e d p q dp dq qinv (se_rnd se) key As Av L Ps Fs Pp X Pv Fv Pub Mk).
  Qed.

  (** The command for verifying. *)
  Lemma rsa_verified (ov : opt) (a : str) (t : key_type) (g vtext : str) (n e : N) (stdin : str) (se : sign_env) (ve : verify_env) :
    op_mode ov = MVerify -> op_algorithm ov = Some a -> loads a t -> op_public_key ov = Some g -> files g = Some vtext -> public_pem t vtext n e ->
    sys_clock_ok (ve_sys ve) ->
    (run w ov stdin se ve = Done (Ok []) <->
     ring_takes n e /\ exists r cc base tag, run_request w ov stdin r
       /\ signature_headers mr_server r cc (b64_bits tag) (or_else [] (op_key_id ov)) /\ SpecVerify.times_ok ve cc
       /\ signature_base (mr_derive r) (cc_components cc) (cc_params cc) base /\ rsa_tag t n e base tag /\ honest_digest r).
  Proof.
    intros Mv Av L Pv Fv Pub S. pose proof (loads_rsa a t L) as T. destruct (public_made w t vtext n e Pub) as (public & vf & Pk & V & Made).
    rewrite (run_verify w ov stdin se ve _ S Mv).
    assert (Dg : forall r keys, digest_ok mr_server r (checks keys) <-> honest_digest r).
    { intros r keys. assert (Cd : forall d, fst (sr_complete_with_digest mr_server r d) = option_map (dg_digest d) (mr_body r)) by (intro d; cbn; unfold mr_complete_with_digest; now destruct (mr_body r)).
      unfold digest_ok, honest_digest, header_value. cbn [checks vc_validate_digest vc_require_digest vc_digests]. split.
      - intros [(dv & D & H)|[D _]] dv' D'.
        + change (mr_derive r (CHeader $"digest") = Done (Some dv)) in D. rewrite D in D'. injection D' as <-. destruct (H eq_refl) as (alg & v & H1 & H2). rewrite Cd in H2. eauto.
        + change (mr_derive r (CHeader $"digest") = Done None) in D. congruence.
      - intro H. change (rl_derive (sr_rl mr_server) r (CHeader $"digest")) with (mr_derive r (CHeader $"digest")).
        destruct (mr_derive r (CHeader $"digest")) as [[dv|]|] eqn:D.
        + left. exists dv. split; [reflexivity|]. intros _. destruct (H dv eq_refl) as (alg & v & H1 & H2). rewrite <- Cd in H2. eauto.
        + right. split; [reflexivity|discriminate].
        + exfalso. revert D. clear. intro D. discriminate D. }
    split.
    - intro R. inversion R as [| |r keys kid RR O A| |]; subst.
      inversion O as [a' t' pem key A' L' Kf Pk'|Nu A'| | | | |]; subst; [|congruence].
      assert (a' = a) by congruence. subst a'. pose proof (loads_once _ _ _ L L') as E. subst t'.
      destruct Kf as (g' & Eg & Rg). assert (g' = g) by congruence. subst g'. cbn [w rsa_world w_read] in Rg. assert (pem = vtext) by congruence. subst pem.
      apply Made in Pk'. injection Pk' as ->. destruct A as (cc & sig & H & Ti & (base & k & B & I & Vf) & _ & _ & D).
      cbn [checks vc_keys] in I. unfold one_key in I. destruct (str_eqb (or_else [] (op_key_id ov)) kid) eqn:Ek; [|destruct I].
      apply str_eqb_eq in Ek. subst kid. destruct I as [<-|[]]. apply V in Vf. destruct Vf as (tag & -> & Vf).
      cbn [w rsa_world w_crypto] in Vf. apply (tag_iff ecdsa t public base tag n e T Pk) in Vf. destruct Vf as [K Vf]. split; [exact K|].
      exists r, cc, base, tag. split; [exact RR|]. split; [exact H|]. split; [exact Ti|]. split; [exact B|]. split; [exact Vf|]. now apply (Dg r) in D.
    - intros (K & r & cc & base & tag & RR & H & Ti & B & Vf & D).
      apply (verify_accepted w ov stdin ve r (one_key (or_else [] (op_key_id ov)) vf) (or_else [] (op_key_id ov)) RR).
      + apply (verify_ok w ov a t vtext vf Av L); [now exists g|now apply Made].
      + exists cc, (b64_bits tag). split; [exact H|]. split; [exact Ti|]. split; [|split; [constructor|split; [discriminate|now apply Dg]]].
        exists base, vf. split; [exact B|]. split; [cbn [checks vc_keys]; unfold one_key; rewrite str_eqb_refl; now left|].
        apply V. exists tag. split; [reflexivity|]. cbn [w rsa_world w_crypto]. apply (tag_iff ecdsa t public base tag n e T Pk). now split.
  Qed.

  (** The command for signing, with a file that is not such a key. *)
  Lemma rsa_refused (os : opt) (a : str) (t : key_type) (f stext label b : str) (stdin : str) (r : mock) (se : sign_env) (ve : verify_env) :
    op_mode os = MSign -> op_algorithm os = Some a -> loads a t -> op_private_key os = Some f -> files f = Some stext -> pem_file stext label b ->
    run_request w os stdin r -> sys_clock_ok (se_sys se) ->
    (run w os stdin se ve = Done (Err VKey) <->
     ~ (short_file b /\ exists key n e d p q dp dq qinv, rsa_pkcs8 key b /\ rsa_private_key n e d p q dp dq qinv key /\ ring_private n e d p q dp dq qinv)).
  Proof.
    intros Ms As L Ps Fs F RR S. pose proof (loads_rsa a t L) as T. destruct (rsa_reads ecdsa ec t b T) as (_ & I & _).
    assert (E : sign_new_pkcs8_pem (w_crypto w) (w_ring w) t stext = sign_new_pkcs8 (ring_rsa_over ecdsa) (RingKeys ring_rsa_pkcs8 ring_rsa_der ec) t b)
      by exact (proj1 (load_private _ _ t stext label b F)).
    rewrite <- I, <- E. rewrite (run_sign w os stdin se ve _ S Ms).
    assert (One : forall pem, key_file w (op_private_key os) pem -> pem = stext).
    { intros pem (f' & Ef & Rf). assert (f' = f) by congruence. subst f'. cbn [w rsa_world w_read] in Rf. congruence. }
    split.
    - intros R N. apply N. clear N. inversion R as [|r' er RR' O| | | | | |]; subst.
      inversion O as [| | | | | |a' t' pem A' L' Kf M|]; subst.
      assert (a' = a) by congruence. subst a'. pose proof (loads_once _ _ _ L L') as Q. subst t'. now rewrite (One _ Kf) in M.
    - intro N. apply (sign_refused w os stdin _ _ r VKey RR). apply (sign_bad_key w os a t stext As L); [now exists f|].
      destruct (sign_new_pkcs8_pem (w_crypto w) (w_ring w) t stext); [|reflexivity]. elim N. discriminate.
  Qed.

  (** The two documented commands. *)
  Lemma rsa_commands (a k hs f g stext vtext stdin : str) (t : key_type) (n e d p q dp dq qinv : N) (r : mock) (fields : list (str * str)) (se : sign_env) (ve : verify_env) :
    loads a t -> separate k -> separate hs -> separate f -> separate g -> simple_text k ->
    files f = Some stext -> private_pem stext n e d p q dp dq qinv -> ring_private n e d p q dp dq qinv -> rsa_exponents e p q dp dq ->
    files g = Some vtext -> public_pem t vtext n e ->
    piped w stdin r -> shown r -> named_fields r hs fields -> honest_digest r ->
    (forall x, In x fields -> fst x <> $"signature" /\ fst x <> $"signature-input") -> sys_clock_ok (se_sys se) ->
    exists out, program w (sign_args hs a k f) stdin se ve = EndRun (Done (Ok out))
      /\ forall se' ve', sys_clock_ok (ve_sys ve') -> program w (verify_args a k g) out se' ve' = EndRun (Done (Ok [])).
  Proof.
    intros L Ek Eh Ef Eg Sk Ff Pp P X Fg Pub Pi Sh Nf Hd Ns S. pose proof (loads_rsa a t L) as T.
    assert (M : exists sg, sign_new_pkcs8_pem (w_crypto w) (w_ring w) t stext = Some sg).
    { destruct Pp as (label & b & key & F & Sb & W & K). rewrite (proj1 (load_private _ _ t stext label b F)).
      exists (ring_signer (ring_rsa_over ecdsa) t key). apply (rsa_made_iff ecdsa ec t b T). exists key. split; [reflexivity|]. split; [exact Sb|]. split; [exact W|].
      exists n, e, d, p, q, dp, dq, qinv. now split. }
    destruct M as [sg M].
    assert (An : exists a', announced a a').
    { destruct (list_eq_dec ascii_dec a $"rsa-pss-sha256") as [->|N]; [exists $"rsa-pss-sha512"; now right|exists a; now left]. }
    destruct An as [a' An].
    pose proof (manual_sign w a a' k hs f stext stdin r t sg fields se ve L An Ek Eh Ef Sk Ff M Pi Sh Nf S) as R.
    eexists. split; [exact R|]. intros se' ve' S'. revert R. unfold program. pose proof (known_separate a (loads_known a t L)) as Ea.
    rewrite (readme_sign hs a k f Eh Ea Ek Ef), (readme_verify a k g Ea Ek Eg). intro R. injection R as R. f_equal.
    eapply (rsa_pipe (Opt MSign None (Some (Some hs)) (Some k) (Some f) None (Some $"sig") (Some a) None None None) _ a t f g stext vtext n e d p q dp dq qinv stdin);
      try reflexivity; try eassumption.
    - now right.
    - discriminate.
    - discriminate.
    - intros cs c G I. match type of G with given ?o _ => pose proof (given_fun _ _ _ G (given_fields r hs fields o Nf eq_refl)) as E end. injection E as ->. unfold comps in I.
      apply in_map_iff in I. destruct I as (x & <- & I). destruct (Ns x I) as [N1 N2]. intros [Q|Q]; injection Q as Q; contradiction.
    - intros r' RR. replace r' with r; [exact Hd|]. eapply run_request_fun; [|exact RR]. exists stdin. split; [reflexivity|exact Pi].
  Qed.
End World.
