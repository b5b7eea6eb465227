(** Lemmas for C85. *)
From Verif Require Import Samples SpecFail StrFacts SignFacts SignPanic SignMore RoundTrip AutoFacts GrowFacts CanonFacts Base64Facts.

Section Client.
  Context {R : Type} (cr : client_request_like R) (L : client_laws cr).
  Notation derive := (rl_derive (cr_rl cr)).
  Variable f : N -> str -> outcome str.

  (** The two functions go the same way up to the signer. *)
  Definition last_step (c : signing_config) (r2 : R) (sig : str) : outcome (R * result unit error) :=
    match hvalue_parse (sig_header_text (sc_label c) sig) with
    | None => Done (r2, Err EConvertHeader)
    | Some w => Done (cr_set_header cr r2 h_signature w, Ok tt)
    end.
  Lemma same_way (r : R) (c : signing_config) (env : sign_env) :
    (sign cr r c env = Panic /\ sign_f cr f r c env = Panic)
    \/ (exists r1 e, sign cr r c env = Done (r1, Err e) /\ sign_f cr f r c env = Done (r1, Err e) /\ e <> EConvertHeader)
    \/ exists r1 cs ts cc base si r2,
         add_auto_headers cr r c env = Done (r1, cs) /\ unix_timestamp (se_sys env) = Done ts /\ sign_canon c cs ts = Ok cc
         /\ canonicalize (cr_rl cr) r1 cc = Done (Ok (base, si))
         /\ sign cr r c env = last_step c r2 (sg_sign (sc_signature c) (se_rnd env) base)
         /\ sign_f cr f r c env = obind (f (se_rnd env) base) (last_step c r2).
  Proof.
    unfold sign, sign_f. destruct (add_auto_headers cr r c env) as [[r1 cs]|]; cbn [obind]; [|now left].
    destruct (unix_timestamp (se_sys env)) as [ts|]; cbn [obind]; [|now left].
    destruct (sign_canon c cs ts) as [cc|e] eqn:Ec.
    2: { right. left. exists r1, e. split; [reflexivity|]. split; [reflexivity|]. intros ->. revert Ec. rewrite sign_canon_eq.
         destruct (match created_at c ts with Some t => _ | None => _ end); [discriminate|]. destruct (match expires_at c ts with Some t => _ | None => _ end); discriminate. }
    destruct (canonicalize (cr_rl cr) r1 cc) as [[[base si]|e]|] eqn:Ek; cbn [obind]; [| |now left].
    2: { right. left. exists r1, ECanonicalize. repeat split. discriminate. }
    destruct (si_to_string si) as [t|] eqn:Es; cbn [obind]; [|now left].
    destruct (hvalue_parse t) as [v|] eqn:Ev.
    2: { right. left. exists r1, ESignatureInputError. repeat split. discriminate. }
    right. right. exists r1, cs, ts, cc, base, si, (cr_set_header cr r1 h_signature_input v). now repeat split.
  Qed.
  Lemma last_step_done (c : signing_config) (r2 : R) (sig : str) : last_step c r2 sig <> Panic.
  Proof. unfold last_step. destruct (hvalue_parse _); discriminate. Qed.

  Lemma same_result (g : N -> str -> str) (r : R) (c : signing_config) (env : sign_env) :
    (forall m s, f (se_rnd env) m = Done s -> g (se_rnd env) m = s) ->
    forall x, sign_f cr f r c env = Done x -> sign cr r (signing_with c g) env = Done x.
  Proof.
    intros G x. unfold sign, sign_f.
    assert (A : add_auto_headers cr r (signing_with c g) env = add_auto_headers cr r c env) by reflexivity. rewrite A.
    destruct (add_auto_headers cr r c env) as [[r1 cs]|]; cbn [obind]; [|discriminate].
    destruct (unix_timestamp (se_sys env)) as [ts|]; cbn [obind]; [|discriminate].
    assert (B : sign_canon (signing_with c g) cs ts = sign_canon c cs ts) by reflexivity. rewrite B.
    destruct (sign_canon c cs ts) as [cc|e]; [|easy].
    destruct (canonicalize (cr_rl cr) r1 cc) as [[[base si]|e]|]; cbn [obind]; [|easy|discriminate].
    destruct (si_to_string si) as [t|]; cbn [obind]; [|discriminate].
    destruct (hvalue_parse t) as [v|]; [|easy].
    destruct (f (se_rnd env) base) as [s|] eqn:E; cbn [obind]; [|discriminate].
    cbn [signing_with sc_signature sg_sign sc_label]. now rewrite (G base s E).
  Qed.

  Section Call.
    Variables (r : R) (c : signing_config) (env : sign_env) (date : str).
    Hypothesis Safe : auto_safe cr r c env.
    Hypothesis Year : sc_add_date c = true -> http_date (seconds (se_utc env)) date.
    Let now := seconds (se_sys env).

    Lemma panic_iff :
      sign_f cr f r c env = Panic <->
      sign cr r c env = Panic
      \/ ~ created_late c now /\ ~ expires_early c now /\ exists cs base, to_sign cr r c date now cs base /\ f (se_rnd env) base = Panic.
    Proof.
      destruct (same_way r c env) as [[-> ->]|[(r1 & e & E & -> & Ne)|(r1 & cs & ts & cc & base & si & r2 & A & T & K & B & E & ->)]].
      - intuition.
      - split; [discriminate|]. intros [H|(N1 & N2 & cs & base & T & _)]; [congruence|]. exfalso.
        apply (outcome_of cr L r c env date Safe Year) in E. fold now in E. inversion E; subst; try contradiction; try congruence.
        eapply (missing_not_signed cr r c env date); eassumption.
      - rewrite (unix_timestamp_ok _ (proj1 Safe)) in T. injection T as <-. change (seconds (se_sys env)) with now in K. rewrite sign_canon_eq in K.
        pose proof (created_late_iff c now) as C1. destruct (match created_at c now with Some t => _ | None => _ end); [discriminate|].
        pose proof (expires_early_iff c now) as C2. destruct (match expires_at c now with Some t => _ | None => _ end); [discriminate|]. injection K as <-.
        assert (N1 : ~ created_late c now) by (intro F; apply C1 in F; discriminate).
        assert (N2 : ~ expires_early c now) by (intro F; apply C2 in F; discriminate).
        apply canonicalize_ok in B. cbn [cc_components cc_params] in B. destruct B as [B _].
        pose proof (call_completed cr L r c env date Safe Year r1 cs A) as V. pose proof (auto_covered cr L r r1 cs c env A) as Hcov.
        assert (Ts : to_sign cr r c date now cs base).
        { split; [apply (covered_ext (derive r1)); assumption|apply (signature_base_ext (derive r1)); [now intros; rewrite <- V|exact B]]. }
        split.
        + intro H. right. split; [exact N1|]. split; [exact N2|]. exists cs, base. split; [exact Ts|].
          destruct (f (se_rnd env) base) as [s|]; [|reflexivity]. cbn [obind] in H. now apply last_step_done in H.
        + intros [H|(_ & _ & cs' & base' & T' & P)]; [rewrite E in H; now apply last_step_done in H|].
          destruct (to_sign_fun cr r c env date _ _ _ _ Ts T') as [_ <-]. now rewrite P.
    Qed.
  End Call.
End Client.

(** ** openssl *)
Lemma ossl_sign_panics (o : ossl) (h : md) (k : pkey) (msg : str) : openssl_rules o ->
  (ossl_http_sign o h k msg = Panic <-> ~ exists n x, k = PRsa n x /\ (30 + digest_bytes h <= n)%N).
Proof.
  intros [S V P G]. unfold ossl_http_sign. destruct k as [n x|x|x|x].
  - replace (os_signer o h (PRsa n x)) with true by (symmetry; apply S; discriminate).
    replace (os_padding o (PRsa n x)) with true by (symmetry; apply P; eauto).
    specialize (G h n x msg). destruct (os_sign o h (PRsa n x) msg) as [tag|].
    + split; [discriminate|]. intro H. exfalso. apply H. exists n, x. split; [reflexivity|]. apply proj1 in G. specialize (G (ex_intro _ tag eq_refl)). lia.
    + split; [|reflexivity]. intros _ (n' & x' & E & Le). injection E as <- <-. apply proj2 in G. destruct G as (t & G); [lia|discriminate].
  - replace (os_padding o (PRsaPss x)) with false by (destruct (os_padding o _) eqn:E; [apply P in E; destruct E as (? & ? & E); discriminate|reflexivity]).
    destruct (os_signer _ _ _); (split; [|reflexivity]); intros _ (? & ? & E & _); discriminate.
  - replace (os_padding o (PEc x)) with false by (destruct (os_padding o _) eqn:E; [apply P in E; destruct E as (? & ? & E); discriminate|reflexivity]).
    destruct (os_signer _ _ _); (split; [|reflexivity]); intros _ (? & ? & E & _); discriminate.
  - replace (os_signer o h (PEdwards x)) with false by (destruct (os_signer o _ _) eqn:E; [exfalso; exact (proj1 (S _ _) E x eq_refl)|reflexivity]).
    split; [|reflexivity]. intros _ (? & ? & E & _); discriminate.
Qed.
Lemma ossl_sign_text (o : ossl) (h : md) (k : pkey) (msg sig : str) :
  ossl_http_sign o h k msg = Done sig -> exists tag, os_sign o h k msg = Some tag /\ sig = b64_bits tag.
Proof.
  unfold ossl_http_sign. destruct (os_signer o h k), (os_padding o k); try discriminate. destruct (os_sign o h k msg) as [tag|]; [|discriminate].
  intro H. injection H as <-. exists tag. split; [reflexivity|]. symmetry. apply SpecFacts.b64_bits_encode.
Qed.
Lemma ossl_verify_panics (o : ossl) (h : md) (k : pkey) (msg sig : str) :
  ossl_http_verify o h k msg sig = Panic <-> (exists tag, sig = b64_bits tag) /\ (os_verifier o h k = false \/ os_padding o k = false).
Proof.
  unfold ossl_http_verify. destruct (b64_decode sig) as [tag|] eqn:E.
  - assert (Es : sig = b64_encode tag) by (symmetry; now apply b64_encode_decode). split.
    + intro H. split; [exists tag; now rewrite SpecFacts.b64_bits_encode|].
      destruct (os_verifier o h k); [|now left]. right. now destruct (os_padding o k).
    + intros [_ [-> | ->]]; [reflexivity|]. now destruct (os_verifier o h k).
  - split; [discriminate|]. intros [(t & ->) _]. rewrite SpecFacts.b64_bits_encode, b64_decode_encode in E. discriminate.
Qed.
Lemma ossl_verify_total (o : ossl) (h : md) (n : N) (x msg sig : str) : openssl_rules o ->
  exists b, ossl_http_verify o h (PRsa n x) msg sig = Done b
    /\ (b = true <-> exists tag, sig = b64_bits tag /\ os_verify o h (PRsa n x) tag msg = Some true).
Proof.
  intros [S V P G]. unfold ossl_http_verify.
  replace (os_verifier o h (PRsa n x)) with true by (symmetry; apply V; discriminate).
  replace (os_padding o (PRsa n x)) with true by (symmetry; apply P; eauto).
  destruct (b64_decode sig) as [tag|] eqn:E.
  - eexists. split; [reflexivity|]. assert (Es : sig = b64_encode tag) by (symmetry; now apply b64_encode_decode). split.
    + intro H. exists tag. rewrite SpecFacts.b64_bits_encode. split; [exact Es|]. destruct (os_verify _ _ _ _ _) as [[]|]; congruence.
    + intros (t & -> & W). rewrite SpecFacts.b64_bits_encode, b64_decode_encode in E. injection E as <-. now rewrite W.
  - exists false. split; [reflexivity|]. split; [discriminate|]. intros (t & -> & _). rewrite SpecFacts.b64_bits_encode, b64_decode_encode in E. discriminate.
Qed.
Lemma sign_panics_by_type (o : ossl) (t : key_type) (h : md) (k : pkey) (msg : str) :
  openssl_rules o -> openssl_md t = Some h ->
  (ossl_http_sign o h k msg = Panic
   <-> ~ exists n x, k = PRsa n x /\ ((if match t with RsaSha256 | RsaPssSha256 => true | _ => false end then 62 else 94) <= n)%N).
Proof.
  intros Ru E. rewrite (ossl_sign_panics o h k msg Ru).
  destruct t; cbn in E; try discriminate; injection E as <-; cbn [digest_bytes]; reflexivity.
Qed.
Lemma other_keys_panic {R} (cr : client_request_like R) (L : client_laws cr) (o : ossl) (h : md) (k : pkey) (r r' : R) (c : signing_config)
    (env : sign_env) (date : str) :
  openssl_rules o -> (forall n x, k <> PRsa n x) ->
  auto_safe cr r c env -> (sc_add_date c = true -> http_date (seconds (se_utc env)) date) ->
  sign cr r c env = Done (r', Ok tt) -> sign_f cr (fun _ => ossl_http_sign o h k) r c env = Panic.
Proof.
  intros Ru N Sf Y S. apply (panic_iff cr L _ r c env date Sf Y). right.
  apply (outcome_of cr L r c env date Sf Y) in S. inversion S as [| | | |cs base N1 N2 T]; subst. split; [exact N1|]. split; [exact N2|].
  exists cs, base. split; [exact T|]. apply (ossl_sign_panics o h k base Ru). intros (n & x & E & _). exact (N n x E).
Qed.
Lemma agrees (cy : crypto) (o : ossl) (t : key_type) (s : scheme) (h : md) (n : N) (x : str) (rnd : N) (sg : http_signer) (vf : http_verifier) :
  openssl_rules o -> openssl_md t = Some h -> openssl_scheme t = Some s ->
  openssl_signer cy t x = Some sg -> openssl_verifier cy t x = Some vf ->
  (forall m, os_sign o h (PRsa n x) m = Some (cy_sign cy s x rnd m)) -> (forall m tag, os_verify o h (PRsa n x) tag m = Some (cy_verify cy s x m tag)) ->
  (forall m, ossl_http_sign o h (PRsa n x) m = Done (sg_sign sg rnd m))
  /\ (forall m sig, ossl_http_verify o h (PRsa n x) m sig = Done (vf_verify vf m sig)).
Proof.
  intros [S V P G] _ Es. unfold openssl_signer, openssl_verifier. rewrite Es. destruct (openssl_name t); [|discriminate].
  intros E1 E2 H1 H2. injection E1 as <-. injection E2 as <-. unfold ossl_http_sign, ossl_http_verify, raw_http_sign, raw_http_verify.
  replace (os_signer o h (PRsa n x)) with true by (symmetry; apply S; discriminate).
  replace (os_verifier o h (PRsa n x)) with true by (symmetry; apply V; discriminate).
  replace (os_padding o (PRsa n x)) with true by (symmetry; apply P; eauto).
  split; intros m.
  - rewrite H1. reflexivity.
  - intro sig. cbn [vf_verify]. destruct (b64_decode sig) as [tag|]; [|reflexivity]. now rewrite H2.
Qed.

Lemma ring_text (lib : N -> str -> option str) (rnd : N) (msg : str) :
  (forall sig, ring_http_sign lib rnd msg = Done sig <-> exists tag, lib rnd msg = Some tag /\ sig = b64_bits tag)
  /\ (ring_http_sign lib rnd msg = Panic <-> lib rnd msg = None).
Proof.
  unfold ring_http_sign. destruct (lib rnd msg) as [tag|]; split; try (split; congruence).
  - intro sig. split; [intro H; injection H as <-; exists tag; now rewrite SpecFacts.b64_bits_encode|].
    intros (t & H & ->). injection H as <-. now rewrite SpecFacts.b64_bits_encode.
  - intro sig. split; [discriminate|]. intros (t & H & _). discriminate.
Qed.
Lemma ring_sign {R} (cr : client_request_like R) (L : client_laws cr) (lib : N -> str -> option str) (r : R) (c : signing_config) (env : sign_env)
    (date : str) :
  auto_safe cr r c env -> (sc_add_date c = true -> http_date (seconds (se_utc env)) date) ->
  (sign_f cr (ring_http_sign lib) r c env = Panic <->
   sign cr r c env = Panic
   \/ ~ created_late c (seconds (se_sys env)) /\ ~ expires_early c (seconds (se_sys env))
      /\ exists cs base, to_sign cr r c date (seconds (se_sys env)) cs base /\ lib (se_rnd env) base = None).
Proof.
  intros Sf Y. rewrite (panic_iff cr L (ring_http_sign lib) r c env date Sf Y).
  split; (intros [P|(A & B & cs & base & T & F)]; [now left|right; split; [exact A|split; [exact B|]]]; exists cs, base; split; [exact T|]; now apply (ring_text lib)).
Qed.
Lemma never_fails {R} (cr : client_request_like R) (cy : crypto) (t : key_type) (key : str) (lib : N -> str -> option str)
    (r : R) (c : signing_config) (env : sign_env) :
  sc_signature c = ring_signer cy t key -> (forall m, lib (se_rnd env) m = Some (cy_sign cy (ring_sign_scheme t) key (se_rnd env) m)) ->
  sign_f cr (ring_http_sign lib) r c env = sign cr r c env.
Proof.
  intros E F. unfold sign_f, sign.
  destruct (add_auto_headers cr r c env) as [[r1 cs]|]; cbn [obind]; [|reflexivity].
  destruct (unix_timestamp (se_sys env)) as [ts|]; cbn [obind]; [|reflexivity].
  destruct (sign_canon c cs ts) as [cc|e]; [|reflexivity].
  destruct (canonicalize (cr_rl cr) r1 cc) as [[[base si]|e]|]; cbn [obind]; try reflexivity.
  destruct (si_to_string si) as [t1|]; cbn [obind]; [|reflexivity]. destruct (hvalue_parse t1) as [v|]; [|reflexivity].
  unfold ring_http_sign. rewrite F, E. reflexivity.
Qed.
