(** Lemmas for C64-C66. *)
From Verif Require Import Samples SpecAuto SignFacts DateFacts SignPanic SignMore RoundTrip GrowFacts ShaStd.

Lemma http_date_fmt (secs : Z) (t : str) : http_date secs t -> t = fmt_http_date secs.
Proof.
  intros (n & y & m & d & hh & mm & ss & E & H1 & H2 & H3 & D & Y & ->). unfold fmt_http_date. cbv zeta.
  assert (En : (secs / 86400 = Z.of_nat n)%Z) by lia. assert (Et : (secs mod 86400 = hh * 3600 + mm * 60 + ss)%Z) by lia.
  rewrite En, Et, civil_after, D. pose proof (civil_range (Z.of_nat n)) as B. rewrite civil_after, D in B.
  replace ((hh * 3600 + mm * 60 + ss) / 3600)%Z with hh by lia.
  replace ((hh * 3600 + mm * 60 + ss) / 60 mod 60)%Z with mm by lia.
  replace ((hh * 3600 + mm * 60 + ss) mod 60)%Z with ss by lia.
  rewrite weekday_name, (zpad2 d), (zpad2 hh), (zpad2 mm), (zpad2 ss) by lia. unfold fmt_year.
  replace ((0 <=? y)%Z && (y <=? 9999)%Z) with true by lia. rewrite zpad4 by lia. reflexivity.
Qed.

(** One step: a header that has no value is given one, or not. *)
Definition with_added (on : bool) (h0 : str) (v : option str) (f : component -> outcome (option str)) (q : component) : outcome (option str) :=
  match q, f q with
  | CHeader h, Done None => if list_eq_dec ascii_dec h h0 then if on then Done v else Done None else Done None
  | _, x => x
  end.

Section Client.
  Context {R : Type} (cr : client_request_like R) (L : client_laws cr).
  Notation derive := (rl_derive (cr_rl cr)).

  Lemma step_same (on : bool) (h0 : str) (v : option str) (r : R) (q : component) :
    on = false \/ v = None \/ (exists x, derive r (CHeader h0) = Done (Some x)) -> derive r q = with_added on h0 v (derive r) q.
  Proof.
    intros H. unfold with_added. destruct q as [d|h]; [now destruct (derive r _) as [[?|]|]|].
    destruct (derive r (CHeader h)) as [[x|]|] eqn:E; try reflexivity.
    destruct (list_eq_dec ascii_dec h h0) as [->|_]; [|reflexivity].
    destruct H as [-> |[-> |(x & F)]]; [reflexivity|now destruct on|congruence].
  Qed.
  Lemma step_set (h0 v : str) (r : R) (f : component -> outcome (option str)) (q : component) :
    derive r (CHeader h0) = Done None -> plain v -> (forall q, f q = derive r q) ->
    derive (cr_set_header cr r h0 v) q = with_added true h0 (Some v) f q.
  Proof.
    intros D P F. unfold with_added. destruct (header_dec q h0) as [->|N].
    - rewrite F, (cl_set _ L) by exact P. rewrite D. now destruct (list_eq_dec ascii_dec h0 h0).
    - rewrite (cl_set_other _ L) by exact N. destruct q as [d|h]; rewrite F; [now destruct (derive r _) as [[?|]|]|].
      destruct (derive r (CHeader h)) as [[x|]|]; try reflexivity. destruct (list_eq_dec ascii_dec h h0) as [->|_]; [congruence|reflexivity].
  Qed.

  Lemma date_step (r ra : R) (c : signing_config) (env : sign_env) (q : component) :
    (sc_add_date c = true -> utc_clock_ok (se_utc env)) -> add_date cr r c env = Done ra ->
    derive ra q = with_added (sc_add_date c) $"date" (Some (fmt_http_date (seconds (se_utc env)))) (derive r) q.
  Proof.
    intro U. unfold add_date. destruct (sc_add_date c); [|intro H; injection H as <-; now apply step_same; left].
    specialize (U eq_refl). rewrite (cl_has _ L). change h_date with $"date".
    destruct (derive r (CHeader $"date")) as [[v|]|] eqn:D; cbn [obind]; [| |discriminate].
    - intro H. injection H as <-. apply step_same. right. right. eauto.
    - rewrite utc_now_ok by exact U. cbn [obind]. rewrite (legal_parse _ (plain_legal _ (fmt_plain _))). cbn [unwrap obind].
      intro H. injection H as <-. now apply step_set; [|apply fmt_plain|].
  Qed.
  Lemma host_step (r ra : R) (c : signing_config) (q : component) :
    (forall h, cr_host cr r = Some h -> plain h) -> add_host cr r c = Done ra ->
    derive ra q = with_added (sc_add_host c) $"host" (cr_host cr r) (derive r) q.
  Proof.
    intro U. unfold add_host. destruct (sc_add_host c); [|intro H; injection H as <-; now apply step_same; left].
    rewrite (cl_has _ L). change h_host with $"host".
    destruct (derive r (CHeader $"host")) as [[v|]|] eqn:D; cbn [obind]; [| |discriminate].
    - intro H. injection H as <-. apply step_same. right. right. eauto.
    - destruct (cr_host cr r) as [h|]; [|intro H; injection H as <-; apply step_same; auto].
      specialize (U h eq_refl). rewrite (legal_parse _ (plain_legal _ U)). cbn [unwrap obind].
      intro H. injection H as <-. now apply step_set.
  Qed.
  Definition digest_value (r : R) (c : signing_config) : option str :=
    match snd (cr_compute_digest cr r (sc_digest c)) with Some d => Some (dg_name (sc_digest c) ++ $"=" ++ d) | None => None end.
  Lemma digest_step (r ra : R) (c : signing_config) (q : component) :
    (forall d, snd (cr_compute_digest cr r (sc_digest c)) = Some d -> plain (dg_name (sc_digest c) ++ $"=" ++ d)) ->
    add_digest cr r c = Done ra ->
    derive ra q = with_added (sc_compute_digest c) $"digest" (digest_value r c) (derive r) q.
  Proof.
    intro U. unfold add_digest. destruct (sc_compute_digest c); [|intro H; injection H as <-; now apply step_same; left].
    rewrite (cl_has _ L). change h_digest with $"digest".
    destruct (derive r (CHeader $"digest")) as [[v|]|] eqn:D; cbn [obind]; [| |discriminate].
    - intro H. injection H as <-. apply step_same. right. right. eauto.
    - pose proof (cl_digest _ L r (sc_digest c)) as Q. unfold digest_value.
      destruct (cr_compute_digest cr r (sc_digest c)) as [r1 [d|]]; cbn [fst snd] in *.
      + specialize (U d eq_refl). rewrite (legal_parse _ (plain_legal _ U)). cbn [unwrap obind].
        intro H. injection H as <-. apply step_set; [now rewrite Q|exact U|]. intro q'. now rewrite Q.
      + intro H. injection H as <-. rewrite Q. apply step_same. auto.
  Qed.

  Lemma auto_completed (r r1 : R) (cs : list component) (c : signing_config) (env : sign_env) (date : str) :
    auto_safe cr r c env -> (sc_add_date c = true -> date = fmt_http_date (seconds (se_utc env))) ->
    add_auto_headers cr r c env = Done (r1, cs) -> forall q, derive r1 q = completed cr r c date q.
  Proof.
    intros (_ & U & Hh & Hd) Dt. unfold add_auto_headers.
    destruct (add_date cr r c env) as [ra|] eqn:Ea; cbn [obind]; [|discriminate].
    assert (Xa : ra = r \/ exists v, ra = cr_set_header cr r h_date v).
    { destruct (add_date_total cr L r c env U) as (x & Ex & Hx & _). rewrite Ea in Ex. injection Ex as <-. exact Hx. }
    assert (Ha : cr_host cr ra = cr_host cr r).
    { destruct Xa as [-> |(v & ->)]; [reflexivity|apply (cl_host _ L)]. }
    destruct (add_host cr ra c) as [rb|] eqn:Eb; cbn [obind]; [|discriminate].
    assert (Xb : rb = ra \/ exists v, rb = cr_set_header cr ra h_host v).
    { destruct (add_host_total cr L ra c) as (x & Ex & Hx & _); [now rewrite Ha|]. rewrite Eb in Ex. injection Ex as <-. exact Hx. }
    assert (Hg : snd (cr_compute_digest cr rb (sc_digest c)) = snd (cr_compute_digest cr r (sc_digest c))).
    { transitivity (snd (cr_compute_digest cr ra (sc_digest c))).
      - destruct Xb as [-> |(v & ->)]; [reflexivity|apply (cl_digest_set _ L)].
      - destruct Xa as [-> |(v & ->)]; [reflexivity|apply (cl_digest_set _ L)]. }
    destruct (add_digest cr rb c) as [rc|] eqn:Ec; cbn [obind]; [|discriminate].
    destruct (if sc_skip_missing c then _ else _) as [cs'|]; cbn [obind]; [|discriminate].
    intro H. injection H as <- <-. intro q.
    pose proof (date_step r ra c env) as Sa. pose proof (host_step ra rb c) as Sb. pose proof (digest_step rb rc c) as Sc.
    rewrite Sc; [|now rewrite Hg|exact Ec]. clear Sc. unfold completed, added.
    destruct q as [d|h]; unfold with_added, digest_value; (rewrite Sb; [|now rewrite Ha|exact Eb]); clear Sb;
      unfold with_added; rewrite Sa by assumption; clear Sa; unfold with_added; rewrite Ha, Hg || idtac.
    { now destruct (derive r (CDerived d)) as [[?|]|]. }
    destruct (derive r (CHeader h)) as [[x|]|]; try reflexivity.
    destruct (list_eq_dec ascii_dec h $"date") as [->|N1].
    { destruct (sc_add_date c); [now rewrite Dt|]. reflexivity. }
    destruct (list_eq_dec ascii_dec h $"host") as [->|N2].
    { destruct (sc_add_host c); [|reflexivity]. destruct (cr_host cr r); reflexivity. }
    destruct (list_eq_dec ascii_dec h $"digest") as [->|N3]; [|reflexivity].
    destruct (sc_compute_digest c); reflexivity.
  Qed.
  Lemma completed_available (r : R) (c : signing_config) (date : str) (q : component) : proper_component q ->
    (available cr r c q <-> completed cr r c date q <> Done None).
  Proof.
    intro P. unfold available, completed, added, has_value.
    pose proof (proper_total cr L r q P) as T.
    destruct q as [d|h].
    { destruct (derive r (CDerived d)) as [[v|]|]; [|split|congruence].
      - split; [discriminate|]. intros _. left. eauto.
      - intros [(v & F)|[[F _]|[[F _]|[F _]]]]; solve [discriminate F|congruence].
      - congruence. }
    destruct (derive r (CHeader h)) as [[v|]|]; [split; [discriminate|left; eauto]| |congruence].
    destruct (list_eq_dec ascii_dec h $"date") as [->|N1].
    { destruct (sc_add_date c); [split; [discriminate|auto]|]. split; [|congruence].
      intros [(v & F)|[[F G]|[[F _]|[F _]]]]; solve [discriminate F|congruence]. }
    destruct (list_eq_dec ascii_dec h $"host") as [->|N2].
    { destruct (sc_add_host c).
      - destruct (cr_host cr r); [split; [discriminate|]|split; [|congruence]].
        + intros _. right. right. left. split; [reflexivity|]. split; [reflexivity|discriminate].
        + intros [(v & F)|[[F G]|[(F & _ & G)|[F _]]]]; solve [discriminate F|congruence].
      - split; [|congruence]. intros [(v & F)|[[F G]|[(F & G & _)|[F _]]]]; solve [discriminate F|congruence]. }
    destruct (list_eq_dec ascii_dec h $"digest") as [->|N3].
    { destruct (sc_compute_digest c).
      - destruct (snd _); [split; [discriminate|]|split; [|congruence]].
        + intros _. right. right. right. split; [reflexivity|]. split; [reflexivity|discriminate].
        + intros [(v & F)|[[F G]|[(F & _ & G)|(F & _ & G)]]]; solve [discriminate F|congruence].
      - split; [|congruence]. intros [(v & F)|[[F G]|[(F & G & _)|(F & G & _)]]]; solve [discriminate F|congruence]. }
    split; [|congruence]. intros [(v & F)|[[F G]|[(F & G & _)|(F & G & _)]]]; solve [discriminate F|congruence].
  Qed.

  Section Call.
    Variables (r : R) (c : signing_config) (env : sign_env) (date : str).
    Hypothesis Safe : auto_safe cr r c env.
    Hypothesis Year : sc_add_date c = true -> http_date (seconds (se_utc env)) date.
    Hypothesis Proper : Forall proper_component (sc_components c).
    Let now := seconds (se_sys env).
    Let view := completed cr r c date.

    Lemma call_completed (r1 : R) (cs : list component) : add_auto_headers cr r c env = Done (r1, cs) -> forall q, derive r1 q = view q.
    Proof. apply auto_completed; [exact Safe|]. intro A. apply http_date_fmt. now apply Year. Qed.
    Lemma sign_completed (r' : R) (res : result unit error) : sign cr r c env = Done (r', res) ->
      forall q, ~ signature_header q -> derive r' q = view q.
    Proof.
      intros H q N. apply (sign_result_of cr r r' c env res (proj1 Safe)) in H. destruct H as (r1 & cs & A & H).
      rewrite <- (call_completed r1 cs A).
      inversion H; subst; try reflexivity; rewrite ?(cl_set_other _ L); try reflexivity; intro; subst; apply N; solve [now left|now right].
    Qed.
    Lemma outcome_of (r' : R) (res : result unit error) : sign cr r c env = Done (r', res) -> sign_outcome cr r c date now (se_rnd env) res.
    Proof.
      intro H. apply (sign_result_of cr r r' c env res (proj1 Safe)) in H. destruct H as (r1 & cs & A & H).
      pose proof (call_completed r1 cs A) as V. pose proof (auto_covered cr L r r1 cs c env A) as Hcov.
      assert (Cov : covered view c cs) by (apply (covered_ext (derive r1)); assumption).
      inversion H as [C1|C1 C2|q C1 C2 C3 C4 C5|base sp C1 C2 C3 C4 C5|base sp C1 C2 C3 C4 C5]; subst.
      - now apply out_created.
      - now apply out_expires.
      - apply (out_missing cr r c date now (se_rnd env) q); try assumption; [| |now rewrite <- V].
        + unfold covered in Hcov. destruct (sc_skip_missing c); [|reflexivity]. exfalso.
          apply (keeps_in _ _ _ q Hcov) in C3. destruct C3 as [_ (v & F)]. congruence.
        + unfold covered in Hcov. destruct (sc_skip_missing c); [|now subst]. now apply (keeps_in _ _ _ q Hcov) in C3.
      - apply (out_header cr r c date now (se_rnd env) cs base); try assumption. split; [exact Cov|].
        apply (signature_base_ext (derive r1)); [now intros; rewrite <- V|exact C3].
      - apply (out_ok cr r c date now (se_rnd env) cs base); try assumption. split; [exact Cov|].
        apply (signature_base_ext (derive r1)); [now intros; rewrite <- V|exact C3].
    Qed.
    Lemma to_sign_fun (cs cs' : list component) (base base' : str) :
      to_sign cr r c date now cs base -> to_sign cr r c date now cs' base' -> cs = cs' /\ base = base'.
    Proof.
      intros [C B] [C' B'].
      assert (cs' = cs) as ->. { unfold covered in *. destruct (sc_skip_missing c); [eapply keeps_fun; eassumption|congruence]. }
      split; [reflexivity|]. eapply signature_base_fun; eassumption.
    Qed.
    Lemma base_values (f : component -> outcome (option str)) (cs : list component) (p : params) (base : str) (q : component) :
      signature_base f cs p base -> In q cs -> has_value f q.
    Proof.
      intros (ids & vals & sp & _ & F & _) I. clear - F I. induction F as [|x v l l' H _ IH]; [destruct I|].
      destruct I as [<-|I]; [exists v; exact H|now apply IH].
    Qed.
    Lemma missing_not_signed (q : component) (cs : list component) (base : str) :
      sc_skip_missing c = false -> In q (sc_components c) -> view q = Done None -> ~ to_sign cr r c date now cs base.
    Proof.
      intros S I N [C B]. unfold covered in C. rewrite S in C. subst cs. destruct (base_values _ _ _ _ q B I) as (v & F). unfold view in N. congruence.
    Qed.
    Lemma outcome_fun (rnd : N) (res res' : result unit error) :
      sign_outcome cr r c date now rnd res -> sign_outcome cr r c date now rnd res' -> res = res'.
    Proof.
      intros H H'. inversion H; subst; inversion H'; subst; try reflexivity; try contradiction;
        try (exfalso; eapply missing_not_signed; eassumption).
      all: match goal with A : to_sign _ _ _ _ _ _ _, B : to_sign _ _ _ _ _ _ _ |- _ => destruct (to_sign_fun _ _ _ _ A B) as [-> ->]; contradiction end.
    Qed.
    Lemma base_printable (cs : list component) (base : str) : to_sign cr r c date now cs base -> ~ unprintable (cr_rl cr) r c now.
    Proof.
      intros [C B]. pose proof B as (ids & vals & sp & _ & _ & (its & pt & Its & Pt & _) & _). intros [U|(d & I & (v & V) & U)]; [apply U; eauto|].
      apply U. assert (In (CDerived d) cs) as J.
      { unfold covered in C. destruct (sc_skip_missing c); [|now subst]. apply (keeps_in _ _ _ _ C). split; [exact I|].
        exists v. unfold completed. now rewrite V. }
      clear - Its J. revert its Its. induction cs as [|x l IH]; intros its F; [destruct J|]. inversion F as [|? t ? ts H1 H2]; subst.
      destruct J as [->|J]; [exists t; exact H1|exact (IH J ts H2)].
    Qed.
    Lemma outcome_iff (res : result unit error) :
      (exists r', sign cr r c env = Done (r', res)) <-> sign_outcome cr r c date now (se_rnd env) res.
    Proof.
      split; [intros (r' & H); now apply (outcome_of r')|]. intro H.
      destruct (sign cr r c env) as [[r' res']|] eqn:E.
      - exists r'. rewrite (outcome_fun (se_rnd env) res res' H (outcome_of r' res' E)). reflexivity.
      - exfalso. apply (sign_panic_iff cr L r c env Safe Proper) in E. destruct E as (N1 & N2 & M & U).
        inversion H; subst; try contradiction; try (eapply base_printable; eassumption).
        destruct M as [M|M]; [congruence|].
        match goal with I : In ?q _, X : completed _ _ _ _ ?q = _ |- _ => pose proof (M q I) as Av; apply (completed_available r c date q) in Av; [contradiction|] end.
        rewrite Forall_forall in Proper. auto.
    Qed.
    Lemma panic_iff_no_outcome : sign cr r c env = Panic <-> forall res, ~ sign_outcome cr r c date now (se_rnd env) res.
    Proof.
      split.
      - intros P res H. apply outcome_iff in H. destruct H as (r' & H). congruence.
      - intro N. destruct (sign cr r c env) as [[r' res]|] eqn:E; [|reflexivity]. exfalso. apply (N res). now apply (outcome_of r').
    Qed.
    Lemma sign_writes (r' : R) : sign cr r c env = Done (r', Ok tt) ->
      exists cs base sp, to_sign cr r c date now cs base
        /\ inner_text (map component_item cs) (stamp c now) sp
        /\ derive r' (CHeader $"signature-input") = Done (Some ($"sig=" ++ sp))
        /\ (plain (signature_text c (se_rnd env) base) -> derive r' (CHeader $"signature") = Done (Some (signature_text c (se_rnd env) base))).
    Proof.
      intro H. pose proof (sign_completed r' (Ok tt) H) as F. apply (sign_result_of cr r r' c env (Ok tt) (proj1 Safe)) in H. destruct H as (r1 & cs & A & H).
      pose proof (call_completed r1 cs A) as V. pose proof (auto_covered cr L r r1 cs c env A) as Hcov.
      inversion H as [| | | |base sp N1 N2 B I Lg E]; subst. exists cs, base, sp.
      split; [split; [apply (covered_ext (derive r1)); assumption|apply (signature_base_ext (derive r1)); [now intros; rewrite <- V|exact B]]|].
      split; [exact I|]. split.
      - rewrite (cl_set_other _ L) by discriminate. apply (cl_set _ L). now apply (input_text_plain _ _ _ I).
      - intro P. now apply (cl_set _ L).
    Qed.
  End Call.
End Client.

(** ** C65, C64 *)
Lemma sign_fmt {R} (cr : client_request_like R) (L : client_laws cr) (r r' : R) (c : signing_config) (env : sign_env) (res : result unit error) (q : component) :
  auto_safe cr r c env -> sign cr r c env = Done (r', res) -> ~ signature_header q ->
  rl_derive (cr_rl cr) r' q = completed cr r c (fmt_http_date (seconds (se_utc env))) q.
Proof.
  intros S H N. apply (sign_result_of cr r r' c env res (proj1 S)) in H. destruct H as (r1 & cs & A & H).
  rewrite <- (auto_completed cr L r r1 cs c env _ S (fun _ => eq_refl) A).
  inversion H; subst; try reflexivity; rewrite ?(cl_set_other _ L); try reflexivity; intro; subst; apply N; solve [now left|now right].
Qed.
Lemma shown (o : option str) (v : str) : opt_bind o hvalue_to_str = Some v -> o = Some v.
Proof. destruct o as [x|]; cbn; [|discriminate]. unfold hvalue_to_str. destruct (hvalue_visible x); [|discriminate]. congruence. Qed.

Lemma standard_is (a : http_digest) (b t : str) : standard_digest a b t -> t = dg_name a ++ $"=" ++ dg_digest a b /\ (a = sha256_digest \/ a = sha512_digest).
Proof.
  intros [b' d B D|b' d B D].
  - apply (sha256_iff b' d B) in D. subst d. rewrite b64_bits_encode. auto.
  - apply (sha512_iff b' d B) in D. subst d. rewrite b64_bits_encode. auto.
Qed.

Lemma rq_values (cr : client_request_like rq) (r r' : rq) (c : signing_config) (env : sign_env) (res : result unit error) :
  cr = rq_async \/ cr = rq_blocking -> sc_digest c = sha256_digest \/ sc_digest c = sha512_digest ->
  sys_clock_ok (se_sys env) -> (sc_add_date c = true -> utc_clock_ok (se_utc env)) -> (forall h, u_host (rq_url r) = Some h -> plain h) ->
  sign cr r c env = Done (r', res) ->
  (forall h, sc_add_host c = true -> hm_get (rq_headers r) $"host" = None -> u_host (rq_url r) = Some h -> hm_get (rq_headers r') $"host" = Some h)
  /\ (forall b t, sc_compute_digest c = true -> hm_get (rq_headers r) $"digest" = None ->
        snd (cr_compute_digest cr r (sc_digest c)) = Some (dg_digest (sc_digest c) b) ->
        standard_digest (sc_digest c) b t -> hm_get (rq_headers r') $"digest" = Some t).
Proof.
  intros Cr Dg Sc Uc Hp H.
  assert (L : client_laws cr) by (destruct Cr as [-> | ->]; [exact rq_async_laws|exact rq_blocking_laws]).
  assert (Rl : cr_rl cr = rq_rl /\ cr_host cr = rq_host) by (destruct Cr as [-> | ->]; split; reflexivity). destruct Rl as [Rl Rh].
  assert (S : auto_safe cr r c env).
  { split; [exact Sc|]. split; [exact Uc|]. rewrite Rh. split; [exact Hp|]. intros d E.
    assert (X : exists b, d = dg_digest (sc_digest c) b).
    { destruct Cr as [-> | ->]; cbn [cr_compute_digest rq_async rq_blocking] in E; unfold rq_async_digest, rq_blocking_digest in E;
        destruct (rq_bod r) as [|b|[b|]]; cbn [snd] in E; try discriminate; injection E as <-; eauto. }
    destruct X as (b & ->). now apply digest_plain. }
  split.
  - intros h A N E. pose proof (sign_fmt cr L r r' c env res (CHeader $"host") S H ltac:(intros [X|X]; discriminate)) as V.
    revert V. unfold completed, added. rewrite Rl, Rh. cbn [rl_derive rq_rl rq_derive]. rewrite N. cbn [opt_bind].
    destruct (list_eq_dec ascii_dec $"host" $"date") as [X|_]; [discriminate|]. destruct (list_eq_dec ascii_dec $"host" $"host") as [_|X]; [|congruence].
    rewrite A. unfold rq_host. rewrite E. intro V. apply shown. congruence.
  - intros b t A N E T. pose proof (sign_fmt cr L r r' c env res (CHeader $"digest") S H ltac:(intros [X|X]; discriminate)) as V.
    destruct (standard_is _ _ _ T) as [Et _]. revert V. unfold completed, added. rewrite Rl. cbn [rl_derive rq_rl rq_derive]. rewrite N. cbn [opt_bind].
    destruct (list_eq_dec ascii_dec $"digest" $"date") as [X|_]; [discriminate|]. destruct (list_eq_dec ascii_dec $"digest" $"host") as [X|_]; [discriminate|].
    destruct (list_eq_dec ascii_dec $"digest" $"digest") as [_|X]; [|congruence].
    rewrite A, E, <- Et. intro V. apply shown. injection V as V. exact V.
Qed.
Lemma rq_async_values (r r' : rq) (c : signing_config) (env : sign_env) (res : result unit error) :
  sc_digest c = sha256_digest \/ sc_digest c = sha512_digest ->
  sys_clock_ok (se_sys env) -> (sc_add_date c = true -> utc_clock_ok (se_utc env)) -> (forall h, u_host (rq_url r) = Some h -> plain h) ->
  sign rq_async r c env = Done (r', res) ->
  (forall h, sc_add_host c = true -> hm_get (rq_headers r) $"host" = None -> u_host (rq_url r) = Some h -> hm_get (rq_headers r') $"host" = Some h)
  /\ (forall b t, sc_compute_digest c = true -> hm_get (rq_headers r) $"digest" = None -> rq_bod r = BBytes b ->
        standard_digest (sc_digest c) b t -> hm_get (rq_headers r') $"digest" = Some t).
Proof.
  intros D S U P H. destruct (rq_values rq_async r r' c env res (or_introl eq_refl) D S U P H) as [A B]. split; [exact A|].
  intros b t C N E. apply B; [exact C|exact N|]. cbn. unfold rq_async_digest. now rewrite E.
Qed.
Lemma rq_blocking_values (r r' : rq) (c : signing_config) (env : sign_env) (res : result unit error) :
  sc_digest c = sha256_digest \/ sc_digest c = sha512_digest ->
  sys_clock_ok (se_sys env) -> (sc_add_date c = true -> utc_clock_ok (se_utc env)) -> (forall h, u_host (rq_url r) = Some h -> plain h) ->
  sign rq_blocking r c env = Done (r', res) ->
  (forall h, sc_add_host c = true -> hm_get (rq_headers r) $"host" = None -> u_host (rq_url r) = Some h -> hm_get (rq_headers r') $"host" = Some h)
  /\ (forall b t, sc_compute_digest c = true -> hm_get (rq_headers r) $"digest" = None -> rq_bod r = BBytes b \/ rq_bod r = BStream (Some b) ->
        standard_digest (sc_digest c) b t -> hm_get (rq_headers r') $"digest" = Some t).
Proof.
  intros D S U P H. destruct (rq_values rq_blocking r r' c env res (or_intror eq_refl) D S U P H) as [A B]. split; [exact A|].
  intros b t C N E. apply B; [exact C|exact N|]. cbn. unfold rq_blocking_digest. destruct E as [-> | ->]; reflexivity.
Qed.
Lemma mock_values (r r' : mock) (c : signing_config) (env : sign_env) (res : result unit error) :
  sc_digest c = sha256_digest \/ sc_digest c = sha512_digest ->
  sys_clock_ok (se_sys env) -> (sc_add_date c = true -> utc_clock_ok (se_utc env)) ->
  sign mr_client r c env = Done (r', res) ->
  (hm_get (mr_headers r) $"host" = None -> hm_get (mr_headers r') $"host" = None)
  /\ (forall b t, sc_compute_digest c = true -> hm_get (mr_headers r) $"digest" = None -> mr_body r = Some b ->
        standard_digest (sc_digest c) b t -> hm_get (mr_headers r') $"digest" = Some t).
Proof.
  intros Dg Sc Uc H.
  assert (S : auto_safe mr_client r c env).
  { split; [exact Sc|]. split; [exact Uc|]. split; [discriminate|]. intros d E. cbn in E.
    destruct (mr_body r) as [b|]; [|discriminate]. cbn in E. injection E as <-. now apply digest_plain. }
  split.
  - intro N. pose proof (sign_fmt mr_client mr_client_laws r r' c env res (CHeader $"host") S H ltac:(intros [X|X]; discriminate)) as V.
    revert V. unfold completed, added. cbn [cr_rl mr_client rl_derive mr_rl mr_derive cr_host]. rewrite N. cbn [option_map].
    destruct (list_eq_dec ascii_dec $"host" $"date") as [X|_]; [discriminate|]. destruct (list_eq_dec ascii_dec $"host" $"host") as [_|X]; [|congruence].
    unfold mr_host. destruct (hm_get (mr_headers r') $"host"); [|reflexivity]. destruct (sc_add_host c); cbn; discriminate.
  - intros b t A N E T. pose proof (sign_fmt mr_client mr_client_laws r r' c env res (CHeader $"digest") S H ltac:(intros [X|X]; discriminate)) as V.
    destruct (standard_is _ _ _ T) as [Et _]. revert V. unfold completed, added. cbn [cr_rl mr_client rl_derive mr_rl mr_derive cr_host cr_compute_digest]. rewrite N. cbn [option_map].
    destruct (list_eq_dec ascii_dec $"digest" $"date") as [X|_]; [discriminate|]. destruct (list_eq_dec ascii_dec $"digest" $"host") as [X|_]; [discriminate|].
    destruct (list_eq_dec ascii_dec $"digest" $"digest") as [_|X]; [|congruence].
    unfold mr_compute_digest. rewrite A, E. cbn [snd option_map]. rewrite <- Et. destruct (hm_get (mr_headers r') $"digest") as [v|]; [|discriminate].
    cbn [option_map]. intro V. destruct (hvalue_to_str v) as [x|] eqn:X.
    + apply (shown (Some v)). cbn [opt_bind]. rewrite X. congruence.
    + exfalso. assert (F : t = []) by congruence. rewrite F in Et. destruct Dg as [Q|Q]; rewrite Q in Et; discriminate.
Qed.

(** Nothing is added that is not there. *)
Lemma not_added {R} (cr : client_request_like R) (L : client_laws cr) (r r' : R) (c : signing_config) (env : sign_env) (res : result unit error) :
  auto_safe cr r c env -> sign cr r c env = Done (r', res) ->
  (sc_add_host c = false \/ cr_host cr r = None -> rl_derive (cr_rl cr) r (CHeader $"host") = Done None -> rl_derive (cr_rl cr) r' (CHeader $"host") = Done None)
  /\ (sc_compute_digest c = false \/ snd (cr_compute_digest cr r (sc_digest c)) = None ->
      rl_derive (cr_rl cr) r (CHeader $"digest") = Done None -> rl_derive (cr_rl cr) r' (CHeader $"digest") = Done None).
Proof.
  intros S H. split; intros A N.
  - rewrite (sign_fmt cr L r r' c env res (CHeader $"host") S H ltac:(intros [X|X]; discriminate)). unfold completed, added. rewrite N.
    destruct (list_eq_dec ascii_dec $"host" $"date") as [X|_]; [discriminate|]. destruct (list_eq_dec ascii_dec $"host" $"host") as [_|X]; [|congruence].
    destruct A as [-> | ->]; [reflexivity|]. now destruct (sc_add_host c).
  - rewrite (sign_fmt cr L r r' c env res (CHeader $"digest") S H ltac:(intros [X|X]; discriminate)). unfold completed, added. rewrite N.
    destruct (list_eq_dec ascii_dec $"digest" $"date") as [X|_]; [discriminate|]. destruct (list_eq_dec ascii_dec $"digest" $"host") as [X|_]; [discriminate|].
    destruct (list_eq_dec ascii_dec $"digest" $"digest") as [_|X]; [|congruence].
    destruct A as [-> | ->]; [reflexivity|]. now destruct (sc_compute_digest c).
Qed.
Lemma rq_safe (cr : client_request_like rq) (r : rq) (c : signing_config) (env : sign_env) : cr = rq_async \/ cr = rq_blocking ->
  sc_digest c = sha256_digest \/ sc_digest c = sha512_digest ->
  sys_clock_ok (se_sys env) -> (sc_add_date c = true -> utc_clock_ok (se_utc env)) -> (forall h, u_host (rq_url r) = Some h -> plain h) -> auto_safe cr r c env.
Proof.
  intros Cr Dg Sc Uc Hp. assert (Rh : cr_host cr = rq_host) by (destruct Cr as [-> | ->]; reflexivity).
  split; [exact Sc|]. split; [exact Uc|]. rewrite Rh. split; [exact Hp|]. intros d E.
  assert (X : exists b, d = dg_digest (sc_digest c) b).
  { destruct Cr as [-> | ->]; cbn [cr_compute_digest rq_async rq_blocking] in E; unfold rq_async_digest, rq_blocking_digest in E;
      destruct (rq_bod r) as [|b|[b|]]; cbn [snd] in E; try discriminate; injection E as <-; eauto. }
  destruct X as (b & ->). now apply digest_plain.
Qed.
Lemma rq_not_added (cr : client_request_like rq) (r r' : rq) (c : signing_config) (env : sign_env) (res : result unit error) :
  cr = rq_async /\ (forall b, rq_bod r <> BBytes b) \/ cr = rq_blocking /\ (rq_bod r = BNone \/ rq_bod r = BStream None) \/ (cr = rq_async \/ cr = rq_blocking) /\ sc_compute_digest c = false ->
  sc_digest c = sha256_digest \/ sc_digest c = sha512_digest ->
  sys_clock_ok (se_sys env) -> (sc_add_date c = true -> utc_clock_ok (se_utc env)) -> (forall h, u_host (rq_url r) = Some h -> plain h) ->
  sign cr r c env = Done (r', res) ->
  rq_derive r (CHeader $"digest") = Done None -> rq_derive r' (CHeader $"digest") = Done None.
Proof.
  intros K Dg Sc Uc Hp H. assert (Cr : cr = rq_async \/ cr = rq_blocking) by tauto.
  assert (L : client_laws cr) by (destruct Cr as [-> | ->]; [exact rq_async_laws|exact rq_blocking_laws]).
  assert (Rl : cr_rl cr = rq_rl) by (destruct Cr as [-> | ->]; reflexivity).
  destruct (not_added cr L r r' c env res (rq_safe cr r c env Cr Dg Sc Uc Hp) H) as [_ D]. rewrite Rl in D. apply D.
  destruct K as [[-> K]|[[-> K]|[_ K]]]; [right|right|now left]; cbn [rq_async rq_blocking cr_compute_digest]; unfold rq_async_digest, rq_blocking_digest.
  - destruct (rq_bod r) as [|b|o]; [reflexivity|now destruct (K b)|reflexivity].
  - destruct K as [-> | ->]; reflexivity.
Qed.
Lemma rq_host_not_added (cr : client_request_like rq) (r r' : rq) (c : signing_config) (env : sign_env) (res : result unit error) :
  cr = rq_async \/ cr = rq_blocking -> sc_add_host c = false \/ u_host (rq_url r) = None ->
  sc_digest c = sha256_digest \/ sc_digest c = sha512_digest ->
  sys_clock_ok (se_sys env) -> (sc_add_date c = true -> utc_clock_ok (se_utc env)) -> (forall h, u_host (rq_url r) = Some h -> plain h) ->
  sign cr r c env = Done (r', res) ->
  rq_derive r (CHeader $"host") = Done None -> rq_derive r' (CHeader $"host") = Done None.
Proof.
  intros Cr K Dg Sc Uc Hp H.
  assert (L : client_laws cr) by (destruct Cr as [-> | ->]; [exact rq_async_laws|exact rq_blocking_laws]).
  assert (Rl : cr_rl cr = rq_rl /\ cr_host cr = rq_host) by (destruct Cr as [-> | ->]; split; reflexivity). destruct Rl as [Rl Rh].
  destruct (not_added cr L r r' c env res (rq_safe cr r c env Cr Dg Sc Uc Hp) H) as [D _]. rewrite Rl, Rh in D. exact (D K).
Qed.
Lemma mock_not_added (r r' : mock) (c : signing_config) (env : sign_env) (res : result unit error) :
  mr_body r = None \/ sc_compute_digest c = false -> sc_digest c = sha256_digest \/ sc_digest c = sha512_digest ->
  sys_clock_ok (se_sys env) -> (sc_add_date c = true -> utc_clock_ok (se_utc env)) -> sign mr_client r c env = Done (r', res) ->
  hm_get (mr_headers r) $"digest" = None -> hm_get (mr_headers r') $"digest" = None.
Proof.
  intros K Dg Sc Uc H N.
  assert (S : auto_safe mr_client r c env).
  { split; [exact Sc|]. split; [exact Uc|]. split; [discriminate|]. intros d E. cbn in E.
    destruct (mr_body r) as [b|]; [|discriminate]. cbn in E. injection E as <-. now apply digest_plain. }
  destruct (not_added mr_client mr_client_laws r r' c env res S H) as [_ D]. cbn [mr_client cr_rl mr_rl rl_derive mr_derive cr_compute_digest] in D.
  rewrite N in D. cbn [option_map] in D. assert (Q : Done (option_map (fun v => match hvalue_to_str v with Some t => t | None => [] end) (hm_get (mr_headers r') $"digest")) = Done None).
  { apply D; [|reflexivity]. destruct K as [K|K]; [right|now left]. unfold mr_compute_digest. now rewrite K. }
  destruct (hm_get (mr_headers r') $"digest"); [discriminate Q|reflexivity].
Qed.

(** ** C64 *)
Lemma digest_text (a : http_digest) (b d : str) :
  (a = sha256_digest -> (8 * N.of_nat (List.length b) < 2 ^ 64)%N -> (d = dg_digest a b <-> exists x, digest SHA_256 b x /\ d = b64_bits x))
  /\ (a = sha512_digest -> (8 * N.of_nat (List.length b) < 2 ^ 128)%N -> (d = dg_digest a b <-> exists x, digest SHA_512 b x /\ d = b64_bits x)).
Proof.
  split; intros -> B; cbn [dg_digest sha256_digest sha512_digest]; split.
  - intros ->. exists (sha256 b). split; [now apply (sha256_iff b _ B)|now rewrite b64_bits_encode].
  - intros (x & D & ->). apply (sha256_iff b _ B) in D. subst x. apply b64_bits_encode.
  - intros ->. exists (sha512 b). split; [now apply (sha512_iff b _ B)|now rewrite b64_bits_encode].
  - intros (x & D & ->). apply (sha512_iff b _ B) in D. subst x. apply b64_bits_encode.
Qed.
Lemma hmac_text (key msg sig : str) (rnd : N) :
  ((8 * N.of_nat (List.length key) < 2 ^ 64)%N -> (8 * N.of_nat (64 + List.length msg) < 2 ^ 64)%N ->
     (sig = sg_sign (hmac_sha256_signer key) rnd msg <-> exists tag, hmac_tag (digest SHA_256) 64 key msg tag /\ sig = b64_bits tag)
     /\ (vf_verify (hmac_sha256_verifier key) msg sig = true <-> exists tag, hmac_tag (digest SHA_256) 64 key msg tag /\ sig = b64_bits tag))
  /\ ((8 * N.of_nat (List.length key) < 2 ^ 128)%N -> (8 * N.of_nat (128 + List.length msg) < 2 ^ 128)%N ->
     (sig = sg_sign (hmac_sha512_signer key) rnd msg <-> exists tag, hmac_tag (digest SHA_512) 128 key msg tag /\ sig = b64_bits tag)
     /\ (vf_verify (hmac_sha512_verifier key) msg sig = true <-> exists tag, hmac_tag (digest SHA_512) 128 key msg tag /\ sig = b64_bits tag)).
Proof.
  split; intros K M; [rewrite (hmac256_iff key msg sig rnd)|rewrite (hmac512_iff key msg sig rnd)]; cbn [sg_sign hmac_sha256_signer hmac_sha512_signer]; unfold hmac_http_sign.
  - assert (X : sig = b64_encode (mac_sha256 key msg) <-> exists tag, hmac_tag (digest SHA_256) 64 key msg tag /\ sig = b64_bits tag); [|tauto].
    split.
    + intros ->. exists (mac_sha256 key msg). split; [now apply mac_sha256_iff|now rewrite b64_bits_encode].
    + intros (tag & T & ->). apply (mac_sha256_iff key msg tag K M) in T. subst tag. apply b64_bits_encode.
  - assert (X : sig = b64_encode (mac_sha512 key msg) <-> exists tag, hmac_tag (digest SHA_512) 128 key msg tag /\ sig = b64_bits tag); [|tauto].
    split.
    + intros ->. exists (mac_sha512 key msg). split; [now apply mac_sha512_iff|now rewrite b64_bits_encode].
    + intros (tag & T & ->). apply (mac_sha512_iff key msg tag K M) in T. subst tag. apply b64_bits_encode.
Qed.

Lemma signed_iff {R} (cr : client_request_like R) (r : R) (c : signing_config) (env : sign_env) :
  (forall r', signed cr r c env = Done (Ok r') <-> sign cr r c env = Done (r', Ok tt))
  /\ (forall e, signed cr r c env = Done (Err e) <-> exists r', sign cr r c env = Done (r', Err e))
  /\ (signed cr r c env = Panic <-> sign cr r c env = Panic).
Proof.
  unfold signed. destruct (sign cr r c env) as [(r1 & [[]|e1])|]; cbn [obind].
  - repeat split; try congruence. intros (r' & H). discriminate H.
  - repeat split; try congruence. { intro H. exists r1. congruence. } intros (r' & H). congruence.
  - repeat split; try congruence. intros (r' & H). discriminate H.
Qed.
