(** Lemmas for C74: requests with the same values are signed alike. *)
From Verif Require Import SpecAlike GrowFacts LineFacts MockFacts RoundTrip SignFacts SignMore ReqFacts AutoFacts SpecAuto FlowFacts.

Lemma keeps_agree {A} (P Q : A -> Prop) (l l' : list A) : (forall x, In x l -> (P x <-> Q x)) -> keeps P l l' -> keeps Q l l'.
Proof.
  intros H K. induction K as [|x l l' Px _ IH|x l l' Px _ IH].
  - constructor.
  - apply keeps_yes; [apply H; [now left|exact Px]|]. apply IH. intros y Hy. apply H. now right.
  - apply keeps_no; [intro Qx; apply Px, H; [now left|exact Qx]|]. apply IH. intros y Hy. apply H. now right.
Qed.

(** Two requests, possibly of different types. *)
Section Alike.
  Context {R1 R2 : Type} (cr1 : client_request_like R1) (cr2 : client_request_like R2) (r1 : R1) (r2 : R2) (c : signing_config) (date : str).
  Hypothesis Same : signs_alike cr1 cr2 r1 r2 c.
  Let f1 := completed cr1 r1 c date.
  Let f2 := completed cr2 r2 c date.

  Lemma completed_alike (q : component) : In q (sc_components c) -> f1 q = f2 q.
  Proof.
    intro I. unfold f1, f2, completed. destruct Same as (V & H & D). destruct q as [d|h]; [now apply V|]. pose proof (V _ I) as E0. rewrite E0.
    destruct (rl_derive (cr_rl cr2) r2 (CHeader h)) as [[v|]|] eqn:N; try reflexivity. unfold added.
    destruct (list_eq_dec ascii_dec h $"date"); [reflexivity|].
    destruct (list_eq_dec ascii_dec h $"host") as [->|_].
    { destruct (sc_add_host c) eqn:E; [|reflexivity]. now rewrite (H I eq_refl E0). }
    destruct (list_eq_dec ascii_dec h $"digest") as [->|_]; [|reflexivity].
    destruct (sc_compute_digest c) eqn:E; [|reflexivity]. now rewrite (D I eq_refl E0).
  Qed.
  Lemma covered_alike (cs : list component) : covered f1 c cs -> covered f2 c cs.
  Proof.
    unfold covered. destruct (sc_skip_missing c); [|trivial]. apply keeps_agree. intros q I. unfold has_value. now rewrite completed_alike.
  Qed.
  Lemma covered_incl (cs : list component) : covered f1 c cs -> incl cs (sc_components c).
  Proof.
    unfold covered. destruct (sc_skip_missing c); [|now intros ->]. intros K q I. now apply (keeps_sub _ _ _ K) in I.
  Qed.
  Lemma to_sign_alike (now : Z) (cs : list component) (base : str) : to_sign cr1 r1 c date now cs base -> to_sign cr2 r2 c date now cs base.
  Proof.
    intros [A B]. split; [now apply covered_alike|]. apply (signature_base_ext f1); [|exact B].
    intros q I. apply completed_alike. now apply (covered_incl cs).
  Qed.
  Lemma outcome_alike (now : Z) (rnd : N) (res : result unit error) : sign_outcome cr1 r1 c date now rnd res -> sign_outcome cr2 r2 c date now rnd res.
  Proof.
    intros [A|A B|q A B S I D|cs base A B T L|cs base A B T L].
    - now apply out_created.
    - now apply out_expires.
    - apply (out_missing _ _ _ _ _ _ q); try assumption. change (f2 q = Done None). rewrite <- (completed_alike q I). exact D.
    - apply (out_header _ _ _ _ _ _ cs base); try assumption. now apply to_sign_alike.
    - apply (out_ok _ _ _ _ _ _ cs base); try assumption. now apply to_sign_alike.
  Qed.
End Alike.

Lemma alike_sym {R1 R2} (cr1 : client_request_like R1) (cr2 : client_request_like R2) (r1 : R1) (r2 : R2) (c : signing_config) :
  signs_alike cr1 cr2 r1 r2 c -> signs_alike cr2 cr1 r2 r1 c.
Proof. intros (A & B & C). split; [|split].
  - intros q I. symmetry. auto.
  - intros I H N. symmetry. apply B; [exact I|exact H|]. now rewrite (A _ I).
  - intros I H N. symmetry. apply C; [exact I|exact H|]. now rewrite (A _ I). Qed.

Lemma signed_alike {R1 R2} (cr1 : client_request_like R1) (L1 : client_laws cr1) (cr2 : client_request_like R2) (L2 : client_laws cr2)
    (r1 : R1) (r2 : R2) (c : signing_config) (env : sign_env) (date : str) :
  auto_safe cr1 r1 c env -> auto_safe cr2 r2 c env -> (sc_add_date c = true -> http_date (seconds (se_utc env)) date) -> Forall proper_component (sc_components c) -> signs_alike cr1 cr2 r1 r2 c ->
  forall res, (exists r1', sign cr1 r1 c env = Done (r1', res)) <-> (exists r2', sign cr2 r2 c env = Done (r2', res)).
Proof.
  intros S1 S2 D P A res.
  rewrite (outcome_iff cr1 L1 r1 c env date S1 D P), (outcome_iff cr2 L2 r2 c env date S2 D P).
  split; apply outcome_alike; [exact A|now apply alike_sym].
Qed.
Lemma headers_alike {R1 R2} (cr1 : client_request_like R1) (L1 : client_laws cr1) (cr2 : client_request_like R2) (L2 : client_laws cr2)
    (r1 r1' : R1) (r2 r2' : R2) (c : signing_config) (env : sign_env) (date : str) :
  auto_safe cr1 r1 c env -> auto_safe cr2 r2 c env -> (sc_add_date c = true -> http_date (seconds (se_utc env)) date) -> signs_alike cr1 cr2 r1 r2 c ->
  (forall m, plain (signature_text c (se_rnd env) m)) ->
  sign cr1 r1 c env = Done (r1', Ok tt) -> sign cr2 r2 c env = Done (r2', Ok tt) ->
  forall q, signature_header q -> rl_derive (cr_rl cr1) r1' q = rl_derive (cr_rl cr2) r2' q.
Proof.
  intros S1 S2 D A Pl H1 H2.
  destruct (sign_writes cr1 L1 r1 c env date S1 D r1' H1) as (cs1 & b1 & sp1 & T1 & I1 & A1 & B1).
  destruct (sign_writes cr2 L2 r2 c env date S2 D r2' H2) as (cs2 & b2 & sp2 & T2 & I2 & A2 & B2).
  apply (to_sign_alike cr1 cr2 r1 r2 c date A) in T1.
  assert (cs1 = cs2).
  { destruct T1 as [X _], T2 as [Y _]. unfold covered in X, Y. destruct (sc_skip_missing c); [|congruence]. exact (keeps_fun _ _ _ _ X Y). }
  subst cs2. destruct T1 as [_ T1], T2 as [_ T2]. pose proof (signature_base_fun _ _ _ _ _ T1 T2). subst b2.
  pose proof (inner_text_fun _ _ _ _ I1 I2). subst sp2.
  intros q [-> | ->]; [rewrite B1, B2 by apply Pl; reflexivity|congruence].
Qed.

(** ** The two reqwest clients *)
Lemma digest_agree (r : rq) (c : signing_config) : not_streamed r -> add_digest rq_async r c = add_digest rq_blocking r c.
Proof.
  intro N. unfold add_digest. destruct (sc_compute_digest c); [|reflexivity].
  change (rl_has_component (cr_rl rq_blocking)) with (rl_has_component (cr_rl rq_async)).
  destruct (rl_has_component (cr_rl rq_async) r (CHeader h_digest)) as [[|]|]; cbn [obind]; try reflexivity.
  cbn [rq_async rq_blocking cr_compute_digest]. unfold rq_async_digest, rq_blocking_digest.
  destruct (rq_bod r) as [|b|o] eqn:B; [reflexivity|reflexivity|]. now destruct (N o).
Qed.
Lemma sign_agree (r : rq) (c : signing_config) (env : sign_env) : not_streamed r -> sign rq_async r c env = sign rq_blocking r c env.
Proof.
  intro N. unfold sign.
  assert (A : add_auto_headers rq_async r c env = add_auto_headers rq_blocking r c env).
  { unfold add_auto_headers.
    change (add_date rq_blocking r c env) with (add_date rq_async r c env). destruct (add_date rq_async r c env) as [r1|] eqn:E1; cbn [obind]; [|reflexivity].
    change (add_host rq_blocking r1 c) with (add_host rq_async r1 c). destruct (add_host rq_async r1 c) as [r2|] eqn:E2; cbn [obind]; [|reflexivity].
    rewrite digest_agree; [reflexivity|].
    assert (B1 : rq_bod r1 = rq_bod r).
    { revert E1. unfold add_date. destruct (sc_add_date c); [|congruence]. destruct (rl_has_component _ _ _) as [[|]|]; cbn [obind]; try congruence.
      destruct (utc_now _); cbn [obind]; [|congruence]. destruct (unwrap _); cbn [obind]; [|congruence]. intro H. injection H as <-. reflexivity. }
    assert (B2 : rq_bod r2 = rq_bod r1).
    { revert E2. unfold add_host. destruct (sc_add_host c); [|congruence]. destruct (rl_has_component _ _ _) as [[|]|]; cbn [obind]; try congruence.
      destruct (cr_host _ _); [|congruence]. destruct (unwrap _); cbn [obind]; [|congruence]. intro H. injection H as <-. reflexivity. }
    intro o. rewrite B2, B1. apply N. }
  rewrite A. reflexivity.
Qed.

(** ** reqwest and MockRequest *)
Lemma message_alike (cr : client_request_like rq) (r : rq) (m : mock) (c : signing_config) :
  cr = rq_async /\ not_streamed r \/ cr = rq_blocking -> same_message r m ->
  (forall q, In q (sc_components c) -> ~ is_authority q) ->
  (forall h v, In (CHeader h) (sc_components c) -> first_value (rq_headers r) h = Some v -> plain v) ->
  (In (CHeader $"host") (sc_components c) -> sc_add_host c = true -> first_value (rq_headers r) $"host" = None -> u_host (rq_url r) = None) ->
  signs_alike cr mr_client r m c.
Proof.
  intros Cr SM Na Pl Ho.
  assert (V : forall q, In q (sc_components c) -> rq_derive r q = mr_derive m q).
  { intros [d|h] I.
    - symmetry. apply same_derived; [exact SM|now apply Na].
    - cbn [rq_derive mr_derive]. pose proof (sm_headers _ _ SM h) as H. rewrite !first_value_get in H. rewrite H.
      pose proof (Pl h) as P. rewrite first_value_get in P. destruct (hm_get (rq_headers r) h) as [v|]; [|reflexivity].
      specialize (P v I eq_refl). apply plain_iff in P. cbn [opt_bind option_map]. unfold hvalue_to_str. now rewrite P. }
  assert (E : rl_derive (cr_rl cr) = rq_derive) by (destruct Cr as [[-> _]| ->]; reflexivity).
  assert (Hn : forall h, In (CHeader h) (sc_components c) -> rq_derive r (CHeader h) = Done None -> first_value (rq_headers r) h = None).
  { intros h I. cbn [rq_derive]. rewrite first_value_get. pose proof (Pl h) as P. rewrite first_value_get in P.
    destruct (hm_get (rq_headers r) h) as [v|]; [|reflexivity]. specialize (P v I eq_refl). apply plain_iff in P.
    cbn [opt_bind]. unfold hvalue_to_str. rewrite P. discriminate. }
  split; [|split].
  - intros q I. rewrite E. now apply V.
  - intros I H N. rewrite E in N. apply Hn in N; [|exact I]. specialize (Ho I H N). destruct Cr as [[-> _]| ->]; exact Ho.
  - intros I H N. cbn [mr_client cr_compute_digest mr_compute_digest snd]. pose proof (sm_body _ _ SM) as B.
    destruct Cr as [[-> St]| ->].
    + cbn [rq_async cr_compute_digest]. unfold rq_async_digest. destruct (rq_bod r) as [|b|o] eqn:Eb; [now rewrite B|now rewrite B|now destruct (St o)].
    + cbn [rq_blocking cr_compute_digest]. unfold rq_blocking_digest. destruct (rq_bod r) as [|b|[b|]]; [now rewrite B..|destruct B].
Qed.

(** ** Signing again *)
Section Again.
  Context {R : Type} (cr : client_request_like R) (L : client_laws cr) (G : digest_stable cr).
  Notation derive := (rl_derive (cr_rl cr)).
  Notation has := (rl_has_component (cr_rl cr)).

  Lemma sign_ok_intro (r r1 : R) (cs : list component) (c : signing_config) (env : sign_env) (base sp : str) :
    let now := seconds (se_sys env) in
    sys_clock_ok (se_sys env) -> add_auto_headers cr r c env = Done (r1, cs) -> ~ created_late c now -> ~ expires_early c now ->
    signature_base (derive r1) cs (stamp c now) base -> inner_text (map component_item cs) (stamp c now) sp ->
    legal_value (signature_text c (se_rnd env) base) ->
    sign cr r c env
    = Done (cr_set_header cr (cr_set_header cr r1 $"signature-input" ($"sig=" ++ sp)) $"signature" (signature_text c (se_rnd env) base), Ok tt).
  Proof.
    intros now S A N1 N2 B I Lg. unfold sign. rewrite A. cbn [obind]. rewrite (unix_timestamp_ok _ S). cbn [obind]. rewrite sign_canon_eq.
    fold now. pose proof (created_late_iff c now) as C1. destruct (match created_at c now with Some t => _ | None => _ end); [exfalso; now apply N1, C1|].
    pose proof (expires_early_iff c now) as C2. destruct (match expires_at c now with Some t => _ | None => _ end); [exfalso; now apply N2, C2|].
    assert (Cn : canonicalize (cr_rl cr) r1 (CanonConfig None cs (stamp c now)) = Done (Ok (base, cc_to_signature_input (CanonConfig None cs (stamp c now)))))
      by (apply canonicalize_ok; split; [exact B|reflexivity]).
    rewrite Cn. cbn [obind]. unfold cc_to_signature_input, si_to_string, si_new. cbn [si_label si_list cc_get_label cc_label cc_components cc_params].
    assert (Et : ser_dict1 $"sig" (cl_new cs (stamp c now)) = Some ($"sig=" ++ sp)).
    { apply label_text. exists sp. split; [|reflexivity]. unfold cl_new. cbn [il_items il_params]. now rewrite <- comp_items_eq. }
    rewrite Et. cbn [unwrap obind]. rewrite (legal_parse _ (plain_legal _ (input_text_plain _ _ _ I))).
    change (sig_header_text (sc_label c) (sg_sign (sc_signature c) (se_rnd env) base)) with (signature_text c (se_rnd env) base).
    now rewrite (legal_parse _ Lg).
  Qed.

  Lemma settled_same (c c' : signing_config) (r : R) : same_coverage c c' -> settled cr c r -> settled cr c' r.
  Proof. intros (_ & _ & D & E & F & H). unfold settled. now rewrite D, E, F, H. Qed.

  Lemma sign_later (r r' : R) (c c' : signing_config) (env env' : sign_env) (pt : str) : auto_safe cr r c env ->
    (forall q, In q (sc_components c) -> ~ signature_header q) -> sign cr r c env = Done (r', Ok tt) ->
    let now := seconds (se_sys env') in
    same_coverage c c' -> sys_clock_ok (se_sys env') -> ~ created_late c' now -> ~ expires_early c' now ->
    params_text (stamp c' now) pt -> (forall m, plain (signature_text c' (se_rnd env') m)) ->
    exists r'' cs base sp, sign cr r' c' env' = Done (r'', Ok tt)
      /\ (forall q, ~ signature_header q -> derive r'' q = derive r' q)
      /\ covered (derive r') c' cs /\ signature_base (derive r') cs (stamp c' now) base /\ inner_text (map component_item cs) (stamp c' now) sp
      /\ derive r'' (CHeader $"signature-input") = Done (Some ($"sig=" ++ sp))
      /\ derive r'' (CHeader $"signature") = Done (Some (signature_text c' (se_rnd env') base)).
  Proof.
    intros Safe NoSig Sg now Cv S' N1 N2 P Pl.
    apply (sign_result_of cr r r' c env (Ok tt) (proj1 Safe)) in Sg. destruct Sg as (r1 & cs & A & Sg).
    pose proof (auto_settles cr L G r r1 cs c env Safe A) as St.
    inversion Sg as [| | | |base0 sp0 L1 L2 B I Lg Er Eo]; clear Eo; subst r'.
    match goal with |- context [sign cr ?x c' env'] => set (r' := x) in * end.
    assert (St' : settled cr c' r').
    { apply (settled_same c); [exact Cv|]. apply settled_set; [exact L|now left|apply settled_set; [exact L|now right|exact St]]. }
    destruct (settled_auto cr L r' c' env' St') as (r2 & Q & A2).
    assert (Same : forall q, ~ signature_header q -> derive r' q = derive r1 q).
    { intros q N. unfold r'. rewrite !(cl_set_other _ L); [reflexivity|..]; intro; subst q; apply N; [now right|now left]. }
    assert (Sub : forall q, In q cs -> In q (sc_components c)).
    { pose proof A as A0. apply (auto_covered cr L) in A0. unfold covered in A0. destruct (sc_skip_missing c); [|now subst]. intros q Hq. now apply (keeps_sub _ _ _ A0). }
    destruct Cv as (Cc & Ck & _).
    assert (A3 : add_auto_headers cr r' c' env' = Done (r2, cs)).
    { rewrite A2, Cc, Ck. replace (if sc_skip_missing c then _ else _) with (@Done (list component) cs); [reflexivity|].
      revert A. unfold add_auto_headers. destruct (add_date cr r c env) as [ra|]; cbn [obind]; [|discriminate].
      destruct (add_host cr ra c) as [rb|]; cbn [obind]; [|discriminate]. destruct (add_digest cr rb c) as [rc|]; cbn [obind]; [|discriminate].
      destruct (sc_skip_missing c); [|cbn [obind]; congruence].
      destruct (ofilter (has rc) (sc_components c)) as [cs'|] eqn:F; cbn [obind]; [|discriminate]. intro H.
      assert (rc = r1 /\ cs' = cs) as [-> ->] by (split; congruence). rewrite <- F. apply ofilter_ext. intros q Hq.
      rewrite !(cl_has _ L), Q. now rewrite Same by now apply NoSig. }
    destruct B as (ids & vals & spB & B1 & B2 & (its & pt0 & B3 & _) & _).
    set (sp := s2b "(" ++ spaced its ++ s2b ")" ++ pt).
    assert (I' : inner_text (map component_item cs) (stamp c' now) sp) by (exists its, pt; split; [exact B3|split; [exact P|reflexivity]]).
    set (base := lines (map (fun iv => fst iv ++ [":"%char; " "%char] ++ snd iv) (combine ids vals) ++ [s2b """@signature-params"": " ++ sp])).
    assert (B' : signature_base (derive r') cs (stamp c' now) base).
    { exists ids, vals, sp. split; [exact B1|]. split; [|split; [exact I'|reflexivity]].
      clear - B2 Same NoSig Sub. induction B2 as [|q v cs vals H _ IH]; constructor.
      - rewrite Same; [exact H|]. apply NoSig, Sub. now left.
      - apply IH. intros x Hx. apply Sub. now right. }
    assert (B2' : signature_base (derive r2) cs (stamp c' now) base) by (apply (signature_base_ext (derive r')); [intros; now rewrite Q|exact B']).
    eexists _, cs, base, sp. split; [apply (sign_ok_intro r' r2 cs c' env' base sp S' A3 N1 N2 B2' I' (plain_legal _ (Pl base)))|].
    split; [|split; [|split; [exact B'|split; [exact I'|split]]]].
    - intros q N. rewrite !(cl_set_other _ L); [apply Q|..]; intro; subst q; apply N; [now right|now left].
    - pose proof A3 as A4. apply (auto_covered cr L) in A4. apply (covered_ext (derive r2)); [exact Q|exact A4].
    - rewrite (cl_set_other _ L) by discriminate. apply (cl_set _ L). exact (input_text_plain _ _ _ I').
    - apply (cl_set _ L). apply Pl.
  Qed.
End Again.
