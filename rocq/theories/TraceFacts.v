(** Lemmas for C88. *)
From Verif Require Export SpecTrace LogFacts.
From Verif Require Import CanonFacts SignFacts AutoFacts GrowFacts MockFacts RoundTrip LineFacts ReqFacts StrFacts.

Lemma write_text_ok (line : str -> trace_line) (b : str) : utf8_text b -> write_text line b = ([line b], Done tt).
Proof. intro U. unfold write_text. apply utf8_valid_iff in U. now rewrite U. Qed.
Lemma tbind_done {A B} (t : list trace_line) (a : A) (f : A -> traced B) : tbind (t, Done a) f = (t ++ fst (f a), snd (f a)).
Proof. reflexivity. Qed.
Lemma tbind_silent {A B} (a : A) (f : A -> traced B) : tbind (silent (Done a)) f = f a.
Proof. unfold silent. rewrite tbind_done. now destruct (f a). Qed.

(** The lines of [canonicalize]. *)
Definition canon_trace (x : outcome (result (str * signature_input) error)) : list trace_line :=
  match x with
  | Done (Ok (base, si)) => [TrBytes base; TrText base; TrInput si]
  | Done (Err (EMissingComponents m)) => [TrMissing m]
  | _ => []
  end.
Lemma canon_traced {R} (rl : request_like R) (r : R) (cc : canon_config) :
  text_values (rl_derive rl r) -> canonicalize_traced rl r cc = (canon_trace (canonicalize rl r cc), canonicalize rl r cc).
Proof.
  intro T. assert (U : forall base si, canonicalize rl r cc = Done (Ok (base, si)) -> utf8_text base).
  { intros base si C. apply canonicalize_ok in C. destruct C as [C _]. eapply base_utf8; [|exact C]. intros q v _. apply T. }
  revert U. unfold canonicalize_traced, canonicalize.
  destruct (derive_all rl r (cc_components cc)) as [[found missing]|]; [|reflexivity]. rewrite tbind_silent. cbn [obind].
  destruct missing as [|m ms]; [|reflexivity]. cbv zeta.
  destruct (cl_to_string _) as [sp|]; [|reflexivity]. rewrite tbind_silent. cbn [obind].
  destruct (omap base_line _) as [ls|]; [|reflexivity]. rewrite tbind_silent. cbn [obind].
  intro U. specialize (U _ _ eq_refl). rewrite tbind_done, (write_text_ok _ _ U), tbind_done. reflexivity.
Qed.

(** ** sign *)
Lemma traced_snd {R} (cr : client_request_like R) (r : R) (c : signing_config) (env : sign_env) :
  (forall r1 cs, add_auto_headers cr r c env = Done (r1, cs) -> text_values (rl_derive (cr_rl cr) r1)) ->
  snd (sign_traced cr r c env) = sign cr r c env.
Proof.
  intro T. unfold sign_traced, sign. destruct (add_auto_headers cr r c env) as [[r1 cs]|] eqn:A; [|reflexivity]. rewrite tbind_silent. cbn [obind].
  destruct (unix_timestamp _) as [ts|]; [|reflexivity]. rewrite tbind_silent. cbn [obind].
  destruct (sign_canon c cs ts) as [cc|e]; [|reflexivity]. rewrite (canon_traced _ _ _ (T r1 cs eq_refl)).
  destruct (canonicalize (cr_rl cr) r1 cc) as [[[base si]|e]|]; [| |reflexivity]; rewrite tbind_done; cbn [snd obind]; [|reflexivity].
  destruct (si_to_string si) as [t|]; [|reflexivity]. rewrite tbind_silent. cbn [obind].
  destruct (hvalue_parse t) as [v|]; [|reflexivity]. cbv zeta. destruct (hvalue_parse _); reflexivity.
Qed.
(** What setting headers and computing digests keep, the automatic headers keep. *)
Lemma auto_keeps {R} (cr : client_request_like R) (P : R -> Prop) (r r1 : R) (c : signing_config) (env : sign_env) (cs : list component) :
  (forall x h v, P x -> P (cr_set_header cr x h v)) -> (forall x d, P x -> P (fst (cr_compute_digest cr x d))) ->
  P r -> add_auto_headers cr r c env = Done (r1, cs) -> P r1.
Proof.
  intros Hs Hd Hr. unfold add_auto_headers. destruct (add_date cr r c env) as [ra|] eqn:Ea; cbn [obind]; [|discriminate].
  destruct (add_host cr ra c) as [rb|] eqn:Eb; cbn [obind]; [|discriminate].
  destruct (add_digest cr rb c) as [rc|] eqn:Ec; cbn [obind]; [|discriminate].
  destruct (if sc_skip_missing c then _ else _); cbn [obind]; [|discriminate]. intro H. injection H as <- _.
  assert (Pa : P ra) by (destruct (add_date_shape cr r ra c env Ea) as [->|(v & ->)]; auto).
  assert (Pb : P rb) by (destruct (add_host_shape cr ra rb c Eb) as [->|(v & ->)]; auto).
  revert Ec. unfold add_digest. destruct (sc_compute_digest c); [|intro E; now injection E as <-].
  destruct (rl_has_component _ _ _) as [[|]|]; cbn [obind]; [intro E; now injection E as <-| |discriminate].
  specialize (Hd rb (sc_digest c) Pb). destruct (cr_compute_digest cr rb (sc_digest c)) as [rd [d|]]; cbn [fst] in Hd; [|intro E; now injection E as <-].
  destruct (unwrap _) as [v|]; cbn [obind]; [|discriminate]. intro E. injection E as <-. auto.
Qed.

Section Sign.
  Context {R : Type} (cr : client_request_like R) (L : client_laws cr).
  Variables (r : R) (c : signing_config) (env : sign_env) (date : str).
  Hypothesis Safe : auto_safe cr r c env.
  Hypothesis Year : sc_add_date c = true -> http_date (seconds (se_utc env)) date.
  Hypothesis Text : text_values (completed cr r c date).
  Let now := seconds (se_sys env).

  Lemma r1_text (r1 : R) (cs : list component) : add_auto_headers cr r c env = Done (r1, cs) -> text_values (rl_derive (cr_rl cr) r1).
  Proof. intros A q v D. rewrite (call_completed cr L r c env date Safe Year r1 cs A) in D. exact (Text q v D). Qed.

  Lemma sign_traced_snd : snd (sign_traced cr r c env) = sign cr r c env.
  Proof. apply traced_snd. exact r1_text. Qed.
  Lemma sign_traced_fst (x : R * result unit error) : sign cr r c env = Done x -> sign_lines cr r c date now (fst (sign_traced cr r c env)).
  Proof.
    unfold sign_traced, sign. destruct (add_auto_headers cr r c env) as [[r1 cs]|] eqn:A; cbn [obind]; [|discriminate].
    pose proof (call_completed cr L r c env date Safe Year r1 cs A) as V. pose proof (auto_covered cr L r r1 cs c env A) as Cov.
    pose proof (r1_text r1 cs A) as T. rewrite tbind_silent.
    rewrite (unix_timestamp_ok _ (proj1 Safe)), tbind_silent. cbn [obind]. rewrite sign_canon_eq. fold now.
    pose proof (created_late_iff c now) as C1. destruct (match created_at c now with Some t => _ | None => _ end).
    { intros _. apply lines_times. left. now apply C1. }
    pose proof (expires_early_iff c now) as C2. destruct (match expires_at c now with Some t => _ | None => _ end).
    { intros _. apply lines_times. right. now apply C2. }
    assert (N1 : ~ created_late c now) by (intro F; apply C1 in F; discriminate).
    assert (N2 : ~ expires_early c now) by (intro F; apply C2 in F; discriminate).
    set (cc := CanonConfig None cs (stamp c now)). rewrite (canon_traced _ _ _ T).
    destruct (canonicalize (cr_rl cr) r1 cc) as [[[base si]|e]|] eqn:Ec; cbn [obind]; [| |discriminate]; rewrite tbind_done; cbn [fst canon_trace].
    - apply canonicalize_ok_spec in Ec. destruct Ec as [B E]. subst si. intro H.
      match goal with |- sign_lines _ _ _ _ _ (_ ++ fst ?x) => assert (F : fst x = []) end.
      { destruct (si_to_string _) as [t|]; [|reflexivity]. rewrite tbind_silent. cbv zeta. destruct (hvalue_parse t); [|reflexivity].
        destruct (hvalue_parse _); reflexivity. }
      rewrite F, app_nil_r. apply lines_base; try assumption. split; [apply (covered_ext (rl_derive (cr_rl cr) r1)); assumption|].
      apply (signature_base_ext (rl_derive (cr_rl cr) r1)); [now intros; rewrite V|exact B].
    - intros _. assert (D : exists os, Forall2 (fun q o => rl_derive (cr_rl cr) r1 q = Done o) cs os).
      { unfold canonicalize in Ec. destruct (derive_all _ _ _) as [y|] eqn:Dv; [|discriminate]. apply derive_all_inv in Dv. destruct Dv as (os & H & _). eauto. }
      destruct D as (os & D). destruct (canonicalize_missing_iff (cr_rl cr) r1 cc os D) as [M1 M2].
      destruct (M2 e Ec) as (l & ->). apply M1 in Ec. destruct Ec as [N E]. subst l. cbn [cc cc_components] in *.
      assert (Sk : sc_skip_missing c = false).
      { unfold covered in Cov. destruct (sc_skip_missing c); [|reflexivity]. exfalso. apply N. clear - Cov D.
        assert (H : forall q, In q cs -> has_value (rl_derive (cr_rl cr) r1) q) by (intros q I; now apply (keeps_sub _ _ _ Cov)).
        clear Cov. unfold lacking. induction D as [|q o cs os E _ IH]; [reflexivity|]. cbn [combine filter snd].
        destruct (H q (or_introl eq_refl)) as (v & F). rewrite E in F. injection F as ->. cbn [is_none]. apply IH. intros. apply H. now right. }
      unfold covered in Cov. rewrite Sk in Cov. subst cs. rewrite app_nil_r. apply lines_missing; try assumption.
      revert D. clear - V. induction 1; constructor; [now rewrite <- V|assumption].
  Qed.
  Lemma combine_fun {A B} (f : A -> outcome B) (l : list A) (os os' : list B) :
    Forall2 (fun q o => f q = Done o) l os -> Forall2 (fun q o => f q = Done o) l os' -> os = os'.
  Proof.
    intro F. revert os'. induction F as [|q o l os E _ IH]; intros os' F'; inversion F'; subst; [reflexivity|]. f_equal; [congruence|now apply IH].
  Qed.
  Lemma lacking_in {A B} (f : A -> outcome (option B)) (l : list A) (os : list (option B)) :
    Forall2 (fun q o => f q = Done o) l os -> forall q, In q (lacking (combine l os)) <-> In q l /\ f q = Done None.
  Proof.
    unfold lacking. induction 1 as [|q o l os E _ IH]; intro x; cbn [combine filter snd In map]; [tauto|].
    destruct o as [v|]; cbn [is_none map In fst].
    - rewrite IH. split; [tauto|]. intros [[<-|I] F]; [congruence|tauto].
    - rewrite IH. split; [intros [<-|]; tauto|tauto].
  Qed.
  Lemma some_lacking {A B} (f : A -> outcome (option B)) (l : list A) (os : list (option B)) :
    Forall2 (fun q o => f q = Done o) l os -> lacking (combine l os) <> [] -> exists q, In q l /\ f q = Done None.
  Proof.
    intros F N. destruct (lacking (combine l os)) as [|q m] eqn:E; [contradiction|]. exists q. apply (lacking_in f l os F q). rewrite E. now left.
  Qed.
  Lemma sign_lines_fun (l l' : list trace_line) : sign_lines cr r c date now l -> sign_lines cr r c date now l' -> l = l'.
  Proof.
    intros [T|os N1 N2 Sk F Lk|cs base N1 N2 B]; intros [T'|os' N1' N2' Sk' F' Lk'|cs' base' N1' N2' B']; try reflexivity; try tauto.
    - now rewrite (combine_fun _ _ _ _ F F').
    - exfalso. destruct (some_lacking _ _ _ F Lk) as (q & I & D). exact (missing_not_signed cr r c env date q cs' base' Sk I D B').
    - exfalso. destruct (some_lacking _ _ _ F' Lk') as (q & I & D). exact (missing_not_signed cr r c env date q cs base Sk' I D B).
    - destruct (to_sign_fun cr r c env date _ _ _ _ B B') as [-> ->]. reflexivity.
  Qed.
  Lemma sign_traced_iff (x : R * result unit error) (l : list trace_line) : sign cr r c env = Done x ->
    (sign_traced cr r c env = (l, Done x) <-> sign_lines cr r c date now l).
  Proof.
    intro H. pose proof (sign_traced_fst x H) as F. pose proof sign_traced_snd as E. rewrite H in E. split.
    - intro Y. rewrite Y in F. exact F.
    - intro G. rewrite (sign_lines_fun _ _ G F), <- E. apply surjective_pairing.
  Qed.
End Sign.

(** Nothing of the key is written. *)
Lemma sign_traced_key {R} (cr : client_request_like R) (r : R) (c : signing_config) (env env' : sign_env) (sg : http_signer) :
  sg_name sg = sg_name (sc_signature c) -> se_sys env' = se_sys env -> se_utc env' = se_utc env ->
  fst (sign_traced cr r (with_signer c sg) env') = fst (sign_traced cr r c env).
Proof.
  intros N E1 E2. unfold sign_traced. assert (A : add_auto_headers cr r (with_signer c sg) env' = add_auto_headers cr r c env).
  { unfold add_auto_headers, add_date. now rewrite E2. }
  rewrite A, E1. destruct (add_auto_headers cr r c env) as [[r1 cs]|]; [|reflexivity]. rewrite !tbind_silent.
  destruct (unix_timestamp _) as [ts|]; [|reflexivity]. rewrite !tbind_silent.
  assert (X : sign_canon (with_signer c sg) cs ts = sign_canon c cs ts) by (unfold sign_canon, with_signer; cbn; now rewrite N).
  rewrite X. destruct (sign_canon c cs ts) as [cc|e]; [|reflexivity].
  destruct (canonicalize_traced (cr_rl cr) r1 cc) as [t [[[base si]|e]|]]; [| |reflexivity]; rewrite !tbind_done; cbn [fst]; f_equal.
  destruct (si_to_string si) as [st|]; [|reflexivity]. rewrite !tbind_silent. destruct (hvalue_parse st); [|reflexivity]. cbv zeta.
  destruct (hvalue_parse _), (hvalue_parse _); reflexivity.
Qed.

(** ** verify *)
Definition pre {A} (t : list trace_line) (x : logged A) : traced A := (t ++ map TrInfo (fst x), snd x).
Lemma pre_bind {A B} (t : list trace_line) (x : logged A) (f : A -> traced B) (g : A -> logged B) :
  (forall a, f a = informs (g a)) -> tbind (pre t x) f = pre t (lbind x g).
Proof.
  intro H. unfold tbind, lbind, pre, trace_then, log_then. destruct x as [l [a|]]; cbn [fst snd]; [|reflexivity].
  rewrite H. unfold informs. cbn [fst snd]. now rewrite map_app, app_assoc.
Qed.
Lemma informs_bind {A B} (x : logged A) (f : A -> traced B) (g : A -> logged B) :
  (forall a, f a = informs (g a)) -> tbind (informs x) f = informs (lbind x g).
Proof. exact (pre_bind [] x f g). Qed.
Lemma silent_informs {A} (x : outcome A) : silent x = informs (quietly x).
Proof. reflexivity. Qed.
Lemma or_informs {A B} (l : list log_line) (o : option A) (f : A -> traced (option B)) (g : A -> logged (option B)) :
  (forall a, f a = informs (g a)) -> or_trace l o f = informs (or_log l o g).
Proof. intro H. destruct o; [apply H|reflexivity]. Qed.

Section Verify.
  Context {S Rem : Type} (sr : server_request_like S Rem) (r : S) (c : verifying_config) (env : verify_env).
  Hypothesis Total : total_request (sr_rl sr) r.
  Hypothesis Clock : sys_clock_ok (ve_sys env).
  Hypothesis Text : text_values (rl_derive (sr_rl sr) r).
  Notation derive := (rl_derive (sr_rl sr) r).

  Lemma needed_lines (cc : canon_config) : base_needed sr r c env cc ->
    exists t, verify_lines sr r c env t /\ t <> [] /\ signature_only_traced sr r c env = pre t (signature_only_log sr r c env).
  Proof.
    intros (sig & kid & H & Ht & Hk). assert (Need : base_needed sr r c env cc) by (exists sig, kid; auto).
    pose proof H as (input & sigv & H1 & H2 & H3 & H4 & H5 & alg & H6). unfold header_value in H1, H3.
    pose proof (proj2 (cc_parse_iff _ _) H2) as P.
    assert (X : signature_only_traced sr r c env =
      tdo res <- canonicalize_traced (sr_rl sr) r cc;
      match res with
      | Err e => informs ([LogCanonicalization e], Done None)
      | Ok (base, si) =>
          tdo _ <- write_text TrVerifying base;
          if existsb (fun k => vf_verify k base sig) (vc_keys c kid) then silent (Done (Some (si, kid)))
          else informs ([LogInvalidSignature], Done None)
      end).
    { unfold signature_only_traced. change h_signature_input with $"signature-input". change h_signature with $"signature".
      rewrite H1, tbind_silent. cbn [or_trace]. rewrite (parse_log_ok _ _ P), P. change (informs ([], ?x)) with (silent x). rewrite !tbind_silent, H3, tbind_silent. cbn [or_trace].
      apply signature_member_iff in H4. rewrite H4. cbn [or_trace]. rewrite str_eqb_refl. cbn [negb]. rewrite keyid_iff, H5. cbn [opt_bind as_str or_trace].
      rewrite alg_iff, H6. cbn [opt_bind as_str or_trace]. rewrite (unix_timestamp_ok _ Clock), tbind_silent.
      apply (times_no sr r c env) in Ht. destruct Ht as [-> ->]. destruct (vc_keys c kid); [contradiction|reflexivity]. }
    assert (Y : signature_only_log sr r c env =
      ldo res <- quietly (canonicalize (sr_rl sr) r cc);
      match res with
      | Err e => ([LogCanonicalization e], Done None)
      | Ok (base, si) =>
          if existsb (fun k => vf_verify k base sig) (vc_keys c kid) then ([], Done (Some (si, kid)))
          else ([LogInvalidSignature], Done None)
      end).
    { rewrite (at_times sr r c env Clock cc sig kid alg H H6 Ht). destruct (vc_keys c kid); [contradiction|reflexivity]. }
    rewrite X, Y, (canon_traced _ _ _ Text). destruct (canonicalize (sr_rl sr) r cc) as [[[base si]|e]|] eqn:Ec.
    - apply canonicalize_ok_spec in Ec. destruct Ec as [B ->].
      exists (base_lines (cc_get_label cc) (cc_components cc) (cc_params cc) base ++ [TrVerifying base]).
      split; [now apply lines_checked|]. split; [discriminate|]. rewrite tbind_done, log_quiet. cbn [canon_trace].
      assert (U : utf8_text base) by (eapply base_utf8; [|exact B]; intros q v _; apply Text).
      rewrite (write_text_ok _ _ U), tbind_done. destruct (existsb _ _); reflexivity.
    - assert (D : exists os, Forall2 (fun q o => derive q = Done o) (cc_components cc) os).
      { unfold canonicalize in Ec. destruct (derive_all _ _ _) as [y|] eqn:Dv; [|discriminate]. apply derive_all_inv in Dv. destruct Dv as (os & F & _). eauto. }
      destruct D as (os & D). destruct (canonicalize_missing_iff (sr_rl sr) r cc os D) as [M1 M2].
      destruct (M2 e Ec) as (l & ->). apply M1 in Ec. destruct Ec as [N E]. exists [TrMissing l].
      split; [rewrite E; apply lines_missed; try assumption; now rewrite <- E|]. split; [discriminate|].
      rewrite tbind_done, log_quiet. reflexivity.
    - exfalso. destruct (parsed_base input cc (sr_rl sr) r P Ec) as (q & Hq & Hd). exact (parsed_derive_total sr r Total input cc q H2 Hq Hd).
  Qed.
  Lemma walk : signature_only_traced sr r c env = informs (signature_only_log sr r c env) \/ exists cc, base_needed sr r c env cc.
  Proof.
    unfold signature_only_traced, signature_only_log. change h_signature_input with $"signature-input". change h_signature with $"signature".
    destruct (derive (CHeader $"signature-input")) as [[input|]|] eqn:Ei; [|left; reflexivity|left; reflexivity].
    rewrite tbind_silent, log_quiet. cbn [or_trace or_log].
    destruct (cc_parse input) as [[cc|e]|] eqn:Ep; [| |left; reflexivity].
    2:{ left. unfold informs, tbind, lbind, trace_then, log_then. cbn [fst snd]. now rewrite map_app. }
    rewrite (parse_log_ok _ _ Ep). change (informs ([], ?x)) with (silent x). rewrite !tbind_silent.
    change (?x = informs (lbind ([], Done ?p) ?f) \/ ?y) with (x = informs (lbind (quietly (Done p)) f) \/ y). rewrite log_quiet.
    change (?x = informs (lbind ([], Done cc) ?f) \/ ?y) with (x = informs (lbind (quietly (Done cc)) f) \/ y). rewrite ?log_quiet.
    destruct (derive (CHeader $"signature")) as [[sigv|]|] eqn:Es; [|left; reflexivity|left; reflexivity].
    rewrite tbind_silent, log_quiet. cbn [or_trace or_log].
    destruct (parse_signature_header sigv) as [[lab sig]|] eqn:Eh; [|left; reflexivity]. cbn [or_trace or_log].
    destruct (str_eqb (cc_get_label cc) lab) eqn:El; cbn [negb]; [|left; reflexivity].
    destruct (cc_keyid cc) as [kid|] eqn:Ek; [|left; reflexivity]. cbn [or_trace or_log].
    destruct (cc_alg cc) as [alg|] eqn:Ea; [|left; reflexivity]. cbn [or_trace or_log].
    rewrite (unix_timestamp_ok _ Clock), tbind_silent, log_quiet.
    destruct (match cc_created cc with Some t => _ | None => _ end) eqn:E1; [left; reflexivity|].
    destruct (match cc_expires cc with Some t => _ | None => _ end) eqn:E2; [left; reflexivity|].
    destruct (vc_keys c kid) as [|k ks] eqn:K; [left; reflexivity|]. right. exists cc, sig, kid. split; [|split].
    - exists input, sigv. split; [exact Ei|]. split; [now apply cc_parse_iff|]. split; [exact Es|]. apply signature_member_iff in Eh. apply str_eqb_eq in El.
      subst lab. split; [exact Eh|]. rewrite keyid_iff in Ek. apply as_str_bare in Ek. split; [exact Ek|]. rewrite alg_iff in Ea. apply as_str_bare in Ea. eauto.
    - apply (times_no sr r c env). auto.
    - rewrite K. discriminate.
  Qed.
  Lemma signature_only_lines : exists t, verify_lines sr r c env t /\ signature_only_traced sr r c env = pre t (signature_only_log sr r c env).
  Proof.
    destruct walk as [W|(cc & W)].
    - exists []. split; [|exact W]. apply lines_unneeded. intros cc N. destruct (needed_lines cc N) as (t & _ & Nt & E). rewrite W in E.
      apply (f_equal (fun x => List.length (fst x))) in E. cbn [pre informs fst] in E. rewrite app_length in E. destruct t; [contradiction|]. cbn [List.length] in E. lia.
    - destruct (needed_lines cc W) as (t & V & _ & E). eauto.
  Qed.
  Lemma verify_pre (t : list trace_line) : signature_only_traced sr r c env = pre t (signature_only_log sr r c env) ->
    verify_traced sr r c env = pre t (verify_log sr r c env).
  Proof.
    intro E. assert (X : except_digest_traced sr r c env = pre t (except_digest_log sr r c env)).
    { unfold except_digest_traced, except_digest_log. rewrite E. apply pre_bind. intro o. apply or_informs. intros [si kid]. apply informs_bind.
      intros []; cbn [negb]; [|reflexivity]. apply informs_bind. reflexivity. }
    unfold verify_traced, verify_log. rewrite X. apply pre_bind. intros [kid|]; [|reflexivity].
    rewrite silent_informs. apply informs_bind. intros [dv|].
    - destruct (vc_validate_digest c); [|reflexivity]. destruct (first_digest _ _) as [[alg v]|]; [|reflexivity].
      destruct (sr_complete_with_digest sr r alg) as [[ex|] rem]; [|reflexivity]. destruct (str_eqb v ex); reflexivity.
    - destruct (vc_require_digest c); [|reflexivity]. destruct (sr_complete_with_digest sr r sha256_digest) as [[ex|] rem]; reflexivity.
  Qed.
  Lemma needed_fun (cc cc' : canon_config) : base_needed sr r c env cc -> base_needed sr r c env cc' -> cc = cc'.
  Proof.
    intros (s & k & (i & v & H1 & H2 & _) & _) (s' & k' & (i' & v' & H1' & H2' & _) & _). unfold header_value in *.
    assert (i' = i) by congruence. subst i'. exact (input_reads_unique _ _ _ H2 H2').
  Qed.
  Lemma verify_lines_fun (t t' : list trace_line) : verify_lines sr r c env t -> verify_lines sr r c env t' -> t = t'.
  Proof.
    intros [N|cc os N F Lk|cc base N B]; intros [N'|cc' os' N' F' Lk'|cc' base' N' B']; try reflexivity;
      try (exfalso; solve [eapply N; eassumption|eapply N'; eassumption]); pose proof (needed_fun _ _ N N') as <-.
    - now rewrite (combine_fun _ _ _ _ F F').
    - exfalso. destruct (some_lacking _ _ _ F Lk) as (q & I & D). destruct (base_values _ _ _ _ q B' I) as (v & Q). congruence.
    - exfalso. destruct (some_lacking _ _ _ F' Lk') as (q & I & D). destruct (base_values _ _ _ _ q B I) as (v & Q). congruence.
    - now rewrite (signature_base_fun _ _ _ _ _ B B').
  Qed.
  Lemma verify_traced_snd : snd (verify_traced sr r c env) = verify sr r c env.
  Proof. destruct signature_only_lines as (t & _ & E). rewrite (verify_pre t E). apply verify_log_snd. Qed.
  Lemma verify_traced_iff (l : list trace_line) : fst (verify_traced sr r c env) = l
    <-> exists t, verify_lines sr r c env t /\ l = t ++ map TrInfo (fst (verify_log sr r c env)).
  Proof.
    destruct signature_only_lines as (t & V & E). rewrite (verify_pre t E). cbn [pre fst]. split.
    - intros <-. eauto.
    - intros (t' & V' & ->). now rewrite (verify_lines_fun t t' V V').
  Qed.
End Verify.

(** Nor of the keys that check. *)
Lemma traced_same_keys {S Rem} (sr : server_request_like S Rem) (r : S) (c : verifying_config) (env : verify_env) (kp : key_provider) :
  same_acceptance (vc_keys c) kp -> verify_traced sr r (with_keys c kp) env = verify_traced sr r c env.
Proof.
  intro H. assert (X : signature_only_traced sr r (with_keys c kp) env = signature_only_traced sr r c env).
  { assert (L : forall A B (x : traced A) (f g : A -> traced B), (forall a, f a = g a) -> tbind x f = tbind x g).
    { intros A B x f g E. unfold tbind. destruct (snd x); [now rewrite E|reflexivity]. }
    assert (O : forall A B l (x : option A) (f g : A -> traced (option B)), (forall a, f a = g a) -> or_trace l x f = or_trace l x g).
    { intros A B l x f g E. destruct x; [apply E|reflexivity]. }
    unfold signature_only_traced. apply L. intro oi. apply O. intro input. apply L. intro parsed. apply L. intro cc. apply L. intro os.
    apply O. intro sigv. apply O. intros [lab sig]. destruct (negb _); [reflexivity|]. apply O. intro kid. apply O. intro alg.
    apply L. intro ts. destruct (match cc_created cc with Some t => _ | None => _ end); [reflexivity|].
    destruct (match cc_expires cc with Some t => _ | None => _ end); [reflexivity|].
    cbn [with_keys vc_keys]. destruct (H kid) as [H1 H2].
    destruct (vc_keys c kid) as [|k ks]; destruct (kp kid) as [|k' ks']; try reflexivity.
    - discriminate (proj1 H1 eq_refl).
    - discriminate (proj2 H1 eq_refl).
    - apply L. intros [[base si]|e]; [|reflexivity]. apply L. intros _. specialize (H2 base sig).
      destruct (existsb _ (k :: ks)) eqn:E1; destruct (existsb _ (k' :: ks')) eqn:E2; try reflexivity.
      + apply existsb_key, H2, existsb_key in E1. congruence.
      + apply existsb_key, H2, existsb_key in E2. congruence. }
  unfold verify_traced, except_digest_traced. rewrite X. reflexivity.
Qed.

(** ** Which values are written *)
Lemma keeps_same {A} (P Q : A -> Prop) (l a : list A) : (forall x, In x l -> (P x <-> Q x)) -> keeps P l a -> keeps Q l a.
Proof.
  intros H K. induction K as [|x l a Hx _ IH|x l a Hx _ IH]; constructor.
  - now apply H; [left|].
  - apply IH. intros. apply H. now right.
  - intro F. apply Hx, H; [now left|exact F].
  - apply IH. intros. apply H. now right.
Qed.
Lemma sign_lines_same {R} (cr : client_request_like R) (r1 r2 : R) (c : signing_config) (d1 d2 : str) (now : Z) (l : list trace_line) :
  (forall q, In q (sc_components c) -> completed cr r1 c d1 q = completed cr r2 c d2 q) ->
  sign_lines cr r1 c d1 now l -> sign_lines cr r2 c d2 now l.
Proof.
  intros H [T|os N1 N2 Sk F Lk|cs base N1 N2 [Cv B]]; [now apply lines_times| |].
  - apply lines_missing; try assumption. clear - F H. induction F as [|q o l os E _ IH]; constructor; [|apply IH; intros; apply H; now right].
    rewrite <- H by now left. exact E.
  - apply lines_base; try assumption.
    assert (I : forall q, In q cs -> In q (sc_components c)).
    { unfold covered in Cv. destruct (sc_skip_missing c); [|now subst]. intros q Hq. now apply (keeps_sub _ _ _ Cv) in Hq. }
    split.
    + unfold covered in *. destruct (sc_skip_missing c); [|exact Cv]. revert Cv. apply keeps_same. intros q Hq. unfold has_value. now rewrite H.
    + apply (signature_base_ext (completed cr r1 c d1)); [|exact B]. intros q Hq. apply H, I, Hq.
Qed.

(** ** The two logs *)
Section Both.
  Context {R : Type} (cr : client_request_like R) (L : client_laws cr).
  Context {S Rem : Type} (sr : server_request_like S Rem) (SL : server_laws sr).
  Variables (r r' : R) (c : signing_config) (env : sign_env) (date : str) (s : S) (vc : verifying_config) (venv : verify_env).
  Hypothesis Safe : auto_safe cr r c env.
  Hypothesis Year : sc_add_date c = true -> http_date (seconds (se_utc env)) date.
  Hypothesis Text : text_values (completed cr r c date).
  Hypothesis Signed : sign cr r c env = Done (r', Ok tt).
  Hypothesis Rep : Forall component_rep (sc_components c).
  Hypothesis Nonce : sc_nonce c <> Some [].
  Hypothesis Clock : sys_clock_ok (ve_sys venv).
  Hypothesis Text' : text_values (rl_derive (sr_rl sr) s).
  Hypothesis Input : rl_derive (sr_rl sr) s (CHeader $"signature-input") = rl_derive (cr_rl cr) r' (CHeader $"signature-input").
  Let view := completed cr r c date.
  Let now := seconds (se_sys env).

  Lemma view_completed (q : component) : signed_view (cr_rl cr) r r' q = view q.
  Proof.
    assert (N : ~ signature_header q -> rl_derive (cr_rl cr) r' q = view q) by exact (sign_completed cr L r c env date Safe Year r' _ Signed q).
    unfold signed_view. destruct q as [d|h]; [apply N; intros [F|F]; discriminate F|].
    destruct (list_eq_dec ascii_dec h $"signature") as [->|N1].
    { unfold view, completed. destruct (rl_derive (cr_rl cr) r _) as [[v|]|]; reflexivity. }
    destruct (list_eq_dec ascii_dec h $"signature-input") as [->|N2].
    { unfold view, completed. destruct (rl_derive (cr_rl cr) r _) as [[v|]|]; reflexivity. }
    apply N. intros [F|F]; injection F as ->; contradiction.
  Qed.
  Lemma canon_back (f g : component -> outcome (option str)) (cs : list component) (m1 m2 : str) :
    Forall component_rep cs -> (forall a b, same_component a b -> g a = g b) ->
    signature_base f cs (stamp c now) m1 -> signature_base g (map canon_component cs) (stamp c now) m2 -> signature_base g cs (stamp c now) m2.
  Proof.
    intros Rcs Sm (ids1 & vals1 & sp1 & G1 & _ & G3 & _) (ids & vals & sp2 & F1 & F2 & F3 & ->).
    assert (Ej : ids = ids1 /\ sp2 = sp1).
    { split.
      - clear - F1 G1. revert ids F1. induction G1 as [|q t l ts Hq _ IH]; intros ids F; inversion F; subst; [reflexivity|].
        f_equal; [|now apply IH]. apply canon_identifier in Hq. eapply identifier_fun; eassumption.
      - apply canon_items_text in G3. rewrite stamp_canon in G3. apply inner_text_iff in G3. apply inner_text_iff in F3. congruence. }
    destruct Ej as [-> ->]. exists ids1, vals, sp1. split; [exact G1|]. split; [|split; [exact G3|reflexivity]].
    clear - Rcs F2 Sm. revert vals F2. induction Rcs as [|q cs Hq _ IH]; intros vals F; inversion F; subst; constructor; [|now apply IH].
    rewrite <- (Sm _ _ (canon_component_same q Hq)). assumption.
  Qed.
  Lemma logs_agree (b b' : str) : same_line_feeds view (rl_derive (sr_rl sr) s) (sc_components c) ->
    In (TrText b) (fst (sign_traced cr r c env)) -> In (TrVerifying b') (fst (verify_traced sr s vc venv)) ->
    (b = b' <-> forall q v, In q (sc_components c) -> view q = Done (Some v) -> rl_derive (sr_rl sr) s q = Done (Some v)).
  Proof.
    intros Lf In1 In2.
    destruct (signed_facts cr L r r' c env (proj1 Safe) Signed Rep Nonce) as (cs & base & sp & Cov & B & D & P & I & _).
    assert (Cov' : covered view c cs) by (apply (covered_ext _ _ c cs view_completed Cov)).
    assert (B' : signature_base view cs (stamp c now) base).
    { apply (signature_base_ext (signed_view (cr_rl cr) r r')); [intros; apply view_completed|exact B]. }
    assert (Hb : b = base).
    { pose proof (sign_traced_fst cr L r c env date Safe Year Text _ Signed) as F.
      assert (Y : exists cs' , to_sign cr r c date now cs' b).
      { revert In1. inversion F as [T E|os N1 N2 Sk O Lk E|cs' base' N1 N2 Ts E]; cbn [In]; [tauto| |].
        - intros [X|[]]. discriminate X.
        - intros [X|[X|[X|[]]]]; try discriminate X. injection X as ->. now exists cs'. }
      destruct Y as (cs' & Y). destruct (to_sign_fun cr r c env date cs' cs b base Y) as [_ E]; [split; assumption|exact E]. }
    subst b.
    assert (Hv : signature_base (rl_derive (sr_rl sr) s) cs (stamp c now) b').
    { destruct (proj1 (verify_traced_iff sr s vc venv (sl_total _ SL s) Clock Text' _) eq_refl) as (t & V & E). rewrite E in In2.
      apply in_app_iff in In2. destruct In2 as [In2|In2].
      2:{ apply in_map_iff in In2. destruct In2 as (x & X & _). discriminate X. }
      inversion V as [N E'|cc os N O Lk E'|cc base' N Bs E']; subst t; cbn [In base_lines app] in In2; [tauto| |].
      { destruct In2 as [X|[]]. discriminate X. }
      destruct In2 as [X|[X|[X|[X|[]]]]]; try discriminate X. injection X as ->.
      destruct N as (sig & kid & (input & sigv & H1 & H2 & _) & _). unfold header_value in H1. rewrite Input, D in H1.
      assert (Ei : input = $"sig=" ++ sp) by congruence. subst input. pose proof (input_reads_unique _ _ _ P H2) as <-.
      cbn [cc_components cc_params] in Bs. apply (canon_back view _ cs base b'); [| |exact B'|exact Bs].
      - rewrite Forall_forall in *. intros q Hq. apply Rep. now apply I.
      - intros a b. apply (sl_same _ SL). }
    assert (I' : forall q, In q cs <-> In q (sc_components c) /\ has_value view q).
    { intro q. rewrite I. unfold has_value. setoid_rewrite view_completed. reflexivity. }
    split.
    - intros <- q v Hq Dv.
      set (rl := RequestLike unit (fun _ => view) (fun _ _ => Panic)). set (cc := CanonConfig None cs (stamp c now)).
      assert (C1 : exists si, canonicalize rl tt cc = Done (Ok (base, si))) by (eexists; apply canonicalize_ok; split; [exact B'|reflexivity]).
      assert (C2 : exists si, canonicalize (sr_rl sr) s cc = Done (Ok (base, si))) by (eexists; apply canonicalize_ok; split; [exact Hv|reflexivity]).
      destruct C1 as [si1 C1]. destruct C2 as [si2 C2].
      destruct (base_binds_values_same rl (sr_rl sr) tt s cc base si1 si2 C1 C2) with (x := q) as (w & W1 & W2).
      + intros x a y Hx Da Db. apply (Lf x); [|exact Da|exact Db]. now apply I'.
      + apply I'. split; [exact Hq|now exists v].
      + cbn in W1. rewrite Dv in W1. congruence.
    - intro H. apply (signature_base_fun view cs (stamp c now)); [exact B'|]. apply (signature_base_ext (rl_derive (sr_rl sr) s)); [|exact Hv].
      intros q Hq. apply I' in Hq. destruct Hq as [Hq (v & Dv)]. rewrite Dv. now apply H.
  Qed.
End Both.

(** ** The crate's own requests *)
Lemma rq_text (r : rq) : utf8_line (rq_method r) (rq_url r) -> text_values (rl_derive rq_rl r).
Proof.
  intros L [d|h] v D; cbn [rq_rl rl_derive] in D.
  - cbn [rq_derive] in D. eapply derive_utf8; [exact L| |exact D]. apply L.
  - apply rq_header_derive in D. now apply plain_utf8.
Qed.
Lemma mr_text (r : mock) : utf8_line (mr_method r) (mr_url r) -> text_values (rl_derive mr_rl r).
Proof.
  intros L [d|h] v D; cbn [mr_rl rl_derive] in D.
  - cbn [mr_derive] in D. eapply derive_utf8; [exact L| |exact D]. exact I.
  - apply mr_header_derive in D. destruct D as [[_ P]|[-> _]]; [now apply plain_utf8|exact utf8_nil].
Qed.
Lemma http_date_text (secs : Z) (t : str) : http_date secs t -> utf8_text t.
Proof. intro H. apply http_date_fmt in H. subst t. apply plain_utf8, DateFacts.fmt_plain. Qed.
Lemma completed_text {R} (cr : client_request_like R) (r : R) (c : signing_config) (env : sign_env) (date : str) :
  auto_safe cr r c env -> (sc_add_date c = true -> http_date (seconds (se_utc env)) date) ->
  text_values (rl_derive (cr_rl cr) r) -> text_values (completed cr r c date).
Proof.
  intros (_ & _ & Hh & Hd) Year T q v D. unfold completed in D. destruct q as [d|h]; [exact (T _ _ D)|].
  destruct (rl_derive (cr_rl cr) r (CHeader h)) as [[x|]|] eqn:E; [injection D as <-; exact (T _ _ E)| |discriminate].
  assert (A : added cr r c date h = Some v) by congruence. clear D. rename A into D. unfold added in D. destruct (list_eq_dec ascii_dec h $"date").
  { destruct (sc_add_date c); [|discriminate]. injection D as <-. eapply http_date_text. now apply Year. }
  destruct (list_eq_dec ascii_dec h $"host").
  { destruct (sc_add_host c); [|discriminate]. now apply plain_utf8, Hh. }
  destruct (list_eq_dec ascii_dec h $"digest"); [|discriminate]. destruct (sc_compute_digest c); [|discriminate].
  destruct (snd (cr_compute_digest cr r (sc_digest c))) as [g|]; [|discriminate]. injection D as <-. now apply plain_utf8, Hd.
Qed.

Lemma rq_traced (cr : client_request_like rq) (r : rq) (c : signing_config) (env : sign_env) : cr = rq_async \/ cr = rq_blocking ->
  utf8_line (rq_method r) (rq_url r) -> snd (sign_traced cr r c env) = sign cr r c env.
Proof.
  intros Cr L. apply traced_snd. intros r1 cs A.
  assert (E : cr_rl cr = rq_rl) by (destruct Cr as [-> | ->]; reflexivity). rewrite E. apply rq_text.
  apply (auto_keeps cr (fun x => utf8_line (rq_method x) (rq_url x)) r r1 c env cs); [| |exact L|exact A].
  - intros x h v. destruct Cr as [-> | ->]; trivial.
  - intros x d. destruct Cr as [-> | ->]; cbn [rq_async rq_blocking cr_compute_digest]; unfold rq_async_digest, rq_blocking_digest; [trivial|].
    destruct (rq_bod x) as [|b|[b|]]; trivial.
Qed.
Lemma mr_traced (r : mock) (c : signing_config) (env : sign_env) :
  utf8_line (mr_method r) (mr_url r) -> snd (sign_traced mr_client r c env) = sign mr_client r c env.
Proof.
  intros L. apply traced_snd. intros r1 cs A. apply mr_text.
  apply (auto_keeps mr_client (fun x => utf8_line (mr_method x) (mr_url x)) r r1 c env cs); trivial.
Qed.
Lemma mr_verify_traced (r : mock) (c : verifying_config) (env : verify_env) : sys_clock_ok (ve_sys env) ->
  utf8_line (mr_method r) (mr_url r) -> snd (verify_traced mr_server r c env) = verify mr_server r c env.
Proof. intros Ck L. apply verify_traced_snd; [apply mr_total|exact Ck|now apply mr_text]. Qed.

(** An accepted request: the four lines of its base. *)
Lemma accepted_lines {S Rem} (sr : server_request_like S Rem) (r : S) (c : verifying_config) (env : verify_env) (rem : Rem) (kid : str) :
  total_request (sr_rl sr) r -> clocks_ok c env -> text_values (rl_derive (sr_rl sr) r) -> verify sr r c env = Done (Ok (rem, kid)) ->
  exists cc sig base, signature_headers sr r cc sig kid /\ signature_base (rl_derive (sr_rl sr) r) (cc_components cc) (cc_params cc) base
    /\ (exists k, In k (vc_keys c kid) /\ vf_verify k base sig = true)
    /\ fst (verify_traced sr r c env) = base_lines (cc_get_label cc) (cc_components cc) (cc_params cc) base ++ [TrVerifying base].
Proof.
  intros Tt [Ck Cu] Tx H. pose proof (verdict_log sr r c env (conj Ck Cu)) as [V _]. specialize (V rem kid H).
  destruct (proj1 (verify_iff sr r c env Ck Cu kid) (ex_intro _ rem H)) as (cc & sig & H1 & H2 & (base & k & H3 & H4 & H5) & _).
  exists cc, sig, base. split; [exact H1|]. split; [exact H3|]. split; [eauto|].
  apply (verify_traced_iff sr r c env Tt Ck Tx). exists (base_lines (cc_get_label cc) (cc_components cc) (cc_params cc) base ++ [TrVerifying base]).
  split; [|rewrite V; cbn [fst map]; now rewrite app_nil_r]. apply lines_checked; [|exact H3]. exists sig, kid. split; [exact H1|]. split; [exact H2|].
  intro E. rewrite E in H4. destruct H4.
Qed.
