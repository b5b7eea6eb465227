(** Facts about the actix-web adapter (C90). *)
From Verif Require Export SpecActix.
From Verif Require Import StrFacts CanonFacts RoundFacts RoundTrip ReqFacts SignMore GrowFacts VerifyFacts LineFacts SpecFacts MockFacts FlowFacts.

Lemma part_text (b a : str) (o : option str) (t : str) : part b a o t <-> t = match o with Some x => b ++ x ++ a | None => [] end.
Proof. split; [now intros []|]. intros ->. destruct o; constructor. Qed.
Lemma target_text_iff (u : uri) (t : str) : target_text u t <-> t = uri_to_string u.
Proof.
  unfold target_text, uri_to_string. split.
  - intros (s & a & q & S & A & Q & ->). apply part_text in S, A, Q. subst s a q.
    destruct (ur_scheme u), (ur_authority u), (ur_query u); cbn [app]; rewrite ?app_nil_r, ?app_assoc; reflexivity.
  - intros ->. eexists _, _, _. split; [apply part_text; reflexivity|]. split; [apply part_text; reflexivity|]. split; [apply part_text; reflexivity|].
    destruct (ur_scheme u), (ur_authority u), (ur_query u); cbn [app]; rewrite ?app_nil_r, ?app_assoc; reflexivity.
Qed.
Lemma ax_values (r : actix) (d : derived) (n : str) : it_bare (dc_item d) = BString n ->
  (forall v, ax_derive r (CDerived d) = Done (Some v) <-> actix_value r n v)
  /\ (ax_derive r (CDerived d) = Done None <-> forall v, ~ actix_value r n v).
Proof.
  intro B. assert (K : forall v, ax_derive r (CDerived d) = Done (Some v) <-> actix_value r n v).
  { intro v. cbn [ax_derive]. unfold ax_derive_component, dc_name. rewrite B. cbn [as_str unwrap obind]. split.
    - intro H. assert (E : forall x y : option str, Done x = Done y -> x = y) by (intros x y X; now injection X). apply E in H. clear E. revert H.
      repeat lazymatch goal with |- context [str_eqb n ?c] => destruct (str_eqb n c) eqn:? end; intro H;
        repeat lazymatch goal with Q : str_eqb n ?c = true |- _ => apply str_eqb_eq in Q; subst n end;
        try discriminate H; try (injection H as <-; constructor).
      + now apply target_text_iff.
      + now constructor.
      + now constructor.
      + destruct (ur_query (ax_uri r)) as [q|] eqn:Q; [|discriminate]. injection H as <-. now constructor.
    - intro H. destruct H; cbn - [str_eqb]; try reflexivity.
      + apply target_text_iff in H. subst t. reflexivity.
      + change (str_eqb $"@authority" AT_REQUEST_TARGET) with false. change (str_eqb $"@authority" AT_METHOD) with false.
        change (str_eqb $"@authority" AT_TARGET_URI) with false. change (str_eqb $"@authority" AT_AUTHORITY) with true. now rewrite H.
      + change (str_eqb $"@scheme" AT_REQUEST_TARGET) with false. change (str_eqb $"@scheme" AT_METHOD) with false.
        change (str_eqb $"@scheme" AT_TARGET_URI) with false. change (str_eqb $"@scheme" AT_AUTHORITY) with false.
        change (str_eqb $"@scheme" AT_SCHEME) with true. now rewrite H.
      + change (str_eqb $"@query" AT_REQUEST_TARGET) with false. change (str_eqb $"@query" AT_METHOD) with false.
        change (str_eqb $"@query" AT_TARGET_URI) with false. change (str_eqb $"@query" AT_AUTHORITY) with false.
        change (str_eqb $"@query" AT_SCHEME) with false. change (str_eqb $"@query" AT_PATH) with false.
        change (str_eqb $"@query" AT_QUERY) with true. now rewrite H. }
  split; [exact K|]. split.
  - intros H v A. apply K in A. congruence.
  - intro H. destruct (ax_derive r (CDerived d)) as [[v|]|] eqn:E; [|reflexivity|].
    + destruct (H v). now apply K.
    + cbn [ax_derive] in E. unfold ax_derive_component, dc_name in E. rewrite B in E. discriminate.
Qed.

Lemma read_all (l : list str) (b : str) : read_payload (map Some l) b = Some (b ++ List.concat l).
Proof.
  revert b. induction l as [|c l IH]; intro b; cbn [map read_payload List.concat]; [now rewrite app_nil_r|]. now rewrite IH, <- app_assoc.
Qed.
Lemma ax_body (r : actix) (d : http_digest) (body : str) : payload_is r body ->
  ax_complete_with_digest r d = match body with [] => (None, None) | _ :: _ => (Some (dg_digest d body), Some body) end.
Proof.
  intros (l & E & ->). unfold ax_complete_with_digest. rewrite E, read_all. cbn [app]. now destruct (List.concat l).
Qed.
Lemma read_errors (l : list (option str)) (b : str) : In None l -> read_payload l b = None.
Proof.
  revert b. induction l as [|[c|] l IH]; intros b I; cbn [read_payload]; [destruct I| |reflexivity]. apply IH. now destruct I.
Qed.
Lemma ax_broken (r : actix) (d : http_digest) : In None (ax_payload r) -> ax_complete_with_digest r d = (None, None).
Proof. intro I. unfold ax_complete_with_digest. now rewrite read_errors. Qed.

Lemma ax_as_mock (m : mock) (r : actix) (q : component) : same_request m r -> as_sent m q -> ax_derive r q = mr_derive m q.
Proof.
  intros S A. destruct q as [d|h]; cbn [ax_derive mr_derive].
  - apply proj2 in A. unfold ax_derive_component, dc_derive, dc_name. destruct (it_bare (dc_item d)) as [| |n| | |] eqn:Bd; cbn [as_str unwrap obind]; try reflexivity.
    assert (An : ~ In n reconstructed) by (intro X; apply A; exists n; now split). unfold reconstructed in An. f_equal.
    assert (N : forall c, In c [$"@request-target"; $"@target-uri"; $"@authority"; $"@scheme"; $"@query-params"] -> str_eqb n c = false).
    { intros c I. destruct (str_eqb n c) eqn:E; [|reflexivity]. apply str_eqb_eq in E. subst c. now destruct An. }
    unfold AT_REQUEST_TARGET, AT_TARGET_URI, AT_AUTHORITY, AT_SCHEME, AT_QUERY_PARAMS.
    rewrite (N $"@request-target"), (N $"@target-uri"), (N $"@authority"), (N $"@scheme"), (N $"@query-params") by (cbn [In]; intuition).
    rewrite (sr_method _ _ S), (sr_path _ _ S), (sr_query _ _ S). reflexivity.
  - f_equal. rewrite <- !first_value_get, (sr_headers _ _ S). pose proof (proj1 A h eq_refl) as A'. unfold legible in A'. clear A. rename A' into A.
    destruct (first_value (mr_headers m) h) as [v|]; [|reflexivity]. specialize (A v eq_refl). apply plain_iff in A. cbn [opt_bind option_map]. unfold hvalue_to_str. now rewrite A.
Qed.

Lemma ax_verdict (m : mock) (r : actix) (c : verifying_config) (env : verify_env) : same_request m r -> mr_body m <> Some [] ->
  Forall (legible m) [$"signature-input"; $"signature"; $"digest"] ->
  (forall input cc q, header_value mr_server m $"signature-input" input -> input_reads input cc -> In q (cc_components cc) -> as_sent m q) ->
  verdict_of (verify ax_server r c env) = verdict_of (verify mr_server m c env).
Proof.
  intros S B L C. symmetry. apply same_verdicts; cbn [sr_rl mr_server ax_server mr_rl ax_rl rl_derive].
  - intros h I. symmetry. apply ax_as_mock; [exact S|]. rewrite Forall_forall in L. split; [|intros []]. intros h' E. injection E as <-. now apply L.
  - intros input cc q H P I. symmetry. apply ax_as_mock; [exact S|]. now apply (C input cc).
  - intro alg. change (fst (mr_complete_with_digest m alg) = fst (ax_complete_with_digest r alg)). unfold mr_complete_with_digest. pose proof (sr_body _ _ S) as Bo.
    destruct (mr_body m) as [b|].
    + change (Some (dg_digest alg b) = fst (ax_complete_with_digest r alg)). rewrite (ax_body r alg b Bo). destruct b as [|x b]; [now destruct B|reflexivity].
    + change (None = fst (ax_complete_with_digest r alg)). now rewrite (ax_body r alg [] Bo).
Qed.

(** ** What is rejected *)
Lemma ax_needs_value (r : actix) (c : verifying_config) (env : verify_env) (input : str) (cc : canon_config) (q : component) :
  header_value ax_server r $"signature-input" input -> input_reads input cc -> In q (cc_components cc) ->
  ax_derive r q = Done None -> forall rem kid, verify ax_server r c env <> Done (Ok (rem, kid)).
Proof.
  intros H P I N rem kid V. apply accepted_signature in V. destruct V as (cc' & sig & (input' & sigv & H' & P' & _) & (base & k & B & _)).
  unfold header_value in *. rewrite H in H'. injection H' as <-. rewrite (input_reads_unique _ _ _ P' P) in *.
  destruct B as (ids & vals & sp & _ & F & _). clear - F I N. revert I. induction F as [|x v l l' D _ IH]; [intros []|].
  intros [->|I]; [|now apply IH]. cbn [sr_rl ax_server ax_rl rl_derive] in D. congruence.
Qed.
Lemma ax_unsupported (r : actix) (c : verifying_config) (env : verify_env) (input : str) (cc : canon_config) (d : derived) (n : str) :
  header_value ax_server r $"signature-input" input -> input_reads input cc -> In (CDerived d) (cc_components cc) ->
  it_bare (dc_item d) = BString n -> (forall v, ~ actix_value r n v) -> forall rem kid, verify ax_server r c env <> Done (Ok (rem, kid)).
Proof.
  intros H P I B N. apply (ax_needs_value r c env input cc (CDerived d)); try assumption. now apply (ax_values r d n B).
Qed.
Lemma ax_origin (r : actix) : origin_form (ax_uri r) -> forall n v, In n [$"@authority"; $"@scheme"; $"@query-params"] -> ~ actix_value r n v.
Proof.
  intros (A & B & _) n v I V. destruct V; cbn [In] in I; repeat (destruct I as [I|I]; [try discriminate I; try congruence|]); destruct I.
Qed.

Lemma request_target_differs (r : actix) (u : url) (v : str) : ~ In " "%char (url_to_string u) -> actix_value r $"@request-target" v -> v <> url_to_string u.
Proof.
  intros N A E. remember $"@request-target" as t eqn:T. destruct A; try discriminate T. apply N. rewrite <- E. apply in_or_app. right. now left.
Qed.
Lemma target_uri_differs (r : actix) (u : url) (v : str) : origin_form (ax_uri r) -> ~ In "/"%char (u_scheme u) ->
  actix_value r $"@target-uri" v -> v <> url_to_string u.
Proof.
  intros (A & B & p & P) N V E. remember $"@target-uri" as t eqn:T. destruct V as [| |w W| | | |]; try discriminate T. apply target_text_iff in W. subst w. unfold uri_to_string in E. rewrite A, B, P in E.
  cbn [app] in E. unfold url_to_string in E. destruct (u_scheme u) as [|x s]; [discriminate E|]. cbn [app] in E. injection E as E _. apply N. left. now symmetry.
Qed.

Lemma ax_empty_body (r : actix) (c : verifying_config) (env : verify_env) (dv : str) : clocks_ok c env -> payload_is r [] ->
  header_value ax_server r $"digest" dv -> vc_validate_digest c = true -> forall rem kid, verify ax_server r c env <> Done (Ok (rem, kid)).
Proof.
  intros [Ck Cu] B D Vd rem kid V. assert (A : accepts ax_server r c env kid) by (apply verify_iff; eauto).
  destruct A as (cc & sig & _ & _ & _ & _ & _ & [(dv' & _ & F)|[N _]]).
  - destruct (F Vd) as (alg & v & _ & E). cbn [sr_complete_with_digest ax_server] in E. rewrite (ax_body r alg [] B) in E. discriminate.
  - unfold header_value in D. congruence.
Qed.

(** What is handed back is the body, or nothing. *)
Lemma ax_handed (r : actix) (c : verifying_config) (env : verify_env) (res : result (option str * str) (option str)) : verify ax_server r c env = Done res ->
  handed_back res = None \/ exists body, body <> [] /\ payload_is r body /\ handed_back res = Some body.
Proof.
  assert (B : forall d, snd (ax_complete_with_digest r d) = None \/ exists body, body <> [] /\ payload_is r body /\ snd (ax_complete_with_digest r d) = Some body).
  { intro d. assert (P : forall l b x, read_payload l b = Some x -> exists cs, l = map Some cs /\ x = b ++ List.concat cs).
    { induction l as [|[y|] l IH]; intros b x H; cbn [read_payload] in H; [|apply IH in H; destruct H as (cs & -> & ->)|discriminate].
      - injection H as <-. exists []. split; [reflexivity|]. cbn. now rewrite app_nil_r.
      - exists (y :: cs). split; [reflexivity|]. cbn [List.concat]. now rewrite app_assoc. }
    unfold ax_complete_with_digest. destruct (read_payload (ax_payload r) []) as [[|a b]|] eqn:E; cbn [snd]; auto. right. exists (a :: b). split; [discriminate|].
    split; [|reflexivity]. apply P in E. exact E. }
  unfold verify. cbn [sr_complete sr_complete_with_digest ax_server sr_rl].
  destruct (verify_except_digest ax_server r c env) as [[kid|]|]; cbn [obind]; [|intros [= <-]; now left|discriminate].
  destruct (rl_derive ax_rl r (CHeader h_digest)) as [[dv|]|]; cbn [obind]; [| |discriminate].
  - destruct (vc_validate_digest c); [|intros [= <-]; now left]. destruct (first_digest _ _) as [[alg v]|]; [|intros [= <-]; now left].
    specialize (B alg). destruct (ax_complete_with_digest r alg) as [[ex|] rm]; [destruct (str_eqb v ex)|]; intros [= <-]; exact B.
  - destruct (vc_require_digest c); [|intros [= <-]; now left]. specialize (B sha256_digest). destruct (ax_complete_with_digest r sha256_digest) as [[ex|] rm]; intros [= <-]; exact B.
Qed.

Lemma ax_laws : server_laws ax_server.
Proof.
  constructor; cbn [sr_rl ax_server].
  - intro r. split.
    + intro h. cbn [ax_rl rl_derive ax_derive]. eauto.
    + intros d n E. cbn [ax_rl rl_derive ax_derive]. unfold ax_derive_component, dc_name. rewrite E. cbn [as_str unwrap obind]. eauto.
  - intros r a b S. cbn [ax_rl rl_derive]. destruct a as [x|h], b as [y|k]; cbn [same_component] in S; try contradiction; [|now subst].
    cbn [ax_derive]. unfold ax_derive_component, dc_name. destruct S as [B _].
    assert (E : as_str (it_bare (dc_item x)) = as_str (it_bare (dc_item y))).
    { destruct (it_bare (dc_item x)), (it_bare (dc_item y)); cbn [same_bare] in B; try contradiction; try congruence; reflexivity. }
    now rewrite E.
Qed.

Lemma target_texts_differ (cr : client_request_like rq) (q : rq) (r : actix) (cc : canon_config) (d : derived) (n base base' : str) (si si' : signature_input) :
  cr = rq_async \/ cr = rq_blocking -> ~ In " "%char (url_to_string (rq_url q)) -> ~ In "/"%char (u_scheme (rq_url q)) ->
  In (CDerived d) (cc_components cc) -> it_bare (dc_item d) = BString n ->
  n = $"@request-target" \/ n = $"@target-uri" /\ origin_form (ax_uri r) ->
  same_line_feeds (rl_derive (cr_rl cr) q) (ax_derive r) (cc_components cc) ->
  canonicalize (cr_rl cr) q cc = Done (Ok (base, si)) -> canonicalize ax_rl r cc = Done (Ok (base', si')) -> base <> base'.
Proof.
  intros Cr Sp Sl I B N L C C' <-.
  assert (Er : cr_rl cr = rq_rl) by (destruct Cr as [-> | ->]; reflexivity). rewrite Er in *.
  destruct (base_binds_values_same rq_rl ax_rl q r cc base si si' C C' L _ I) as (v & V & V').
  assert (Vu : v = url_to_string (rq_url q)).
  { cbn [rq_rl rl_derive rq_derive] in V. unfold dc_derive, dc_name in V. rewrite B in V. cbn [as_str unwrap obind] in V.
    destruct N as [->|[-> _]]; vm_compute str_eqb in V; cbv iota in V; congruence. }
  apply (ax_values r d n B) in V'. destruct N as [->|[-> O]].
  - exact (request_target_differs r (rq_url q) v Sp V' Vu).
  - exact (target_uri_differs r (rq_url q) v O Sl V' Vu).
Qed.

Definition as_mock (q : rq) : mock :=
  MockReq HTTP_11 (rq_method q) (rq_url q) [] (rq_headers q)
    match rq_bod q with BNone => None | BBytes b => Some b | BStream o => o end.

Lemma reqwest_to_actix (cr : client_request_like rq) (r r' : rq) (a : actix) (c : signing_config) (env : sign_env) (vc : verifying_config)
    (venv : verify_env) (k : http_verifier) :
  cr = rq_async /\ not_streamed r \/ cr = rq_blocking ->
  sys_clock_ok (se_sys env) -> sign cr r c env = Done (r', Ok tt) -> arrives r' a -> nonempty_body r' ->
  sc_label c = $"sig" -> sc_nonce c <> Some [] ->
  Forall component_rep (sc_components c) -> (forall q, In q (sc_components c) -> ~ signature_header q /\ ~ needs_more q) ->
  first_value (rq_headers r) $"digest" = None -> sc_compute_digest c = true ->
  sc_digest c = sha256_digest \/ sc_digest c = sha512_digest -> vc_digests vc = default_digest_provider ->
  matching (sc_signature c) (se_rnd env) k -> In k (vc_keys vc (sc_key_id c)) ->
  sys_clock_ok (ve_sys venv) -> vc_validate_date vc = false ->
  (forall t, created_at c (seconds (se_sys env)) = Some t -> (t <= seconds (ve_sys venv))%Z) ->
  (forall t, expires_at c (seconds (se_sys env)) = Some t -> (seconds (ve_sys venv) <= t)%Z) ->
  (forall q, In q (vc_required vc) -> exists h, q = CHeader h /\ In q (sc_components c) /\ rq_readable r' h) ->
  exists rem, verify ax_server a vc venv = Done (Ok (rem, sc_key_id c)).
Proof.
  intros Hs S H Ar Ne Lb Nn Rp Ns Dg Cd Dd Dp Km Kin S' Vd Tc Te Rq.
  assert (SM : same_message r' (as_mock r')).
  { constructor; try reflexivity. cbn [as_mock mr_body]. pose proof (ar_body _ _ Ar). destruct (rq_bod r') as [|b|[b|]]; trivial. }
  assert (SR : same_request (as_mock r') a).
  { destruct Ar as [A1 A2 A3 A4 A5]. constructor; cbn [as_mock mr_method mr_url mr_headers mr_body]; try assumption.
    destruct (rq_bod r') as [|b|[b|]]; [exact A5..|destruct A5]. }
  assert (Na : forall q, In q (sc_components c) -> ~ signature_header q /\ ~ is_authority q).
  { intros q I. destruct (Ns q I) as [X Y]. split; [exact X|]. intros (p & ->). apply Y. exists $"@authority". split; [reflexivity|]. cbn [reconstructed In]. tauto. }
  pose proof (interop cr r r' (as_mock r') c env vc venv k Hs S H SM Lb Nn Rp Na Dg Cd Dd Dp Km Kin S' Vd Tc Te Rq) as V.
  assert (Hc : cr = rq_async \/ cr = rq_blocking) by tauto.
  assert (L : client_laws cr) by (destruct Hc as [-> | ->]; [exact rq_async_laws|exact rq_blocking_laws]).
  assert (Dr : rl_derive (cr_rl cr) = rq_derive) by (destruct Hc as [-> | ->]; reflexivity).
  destruct (signed_facts cr L r r' c env S H Rp Nn) as (cs & base & sp & _ & B & D1 & P & Cs & D2).
  destruct (Km base) as (K1 & K2 & K3).
  assert (Pl : plain (signature_text c (se_rnd env) base)).
  { apply signature_text_plain; [rewrite Lb; apply plain_iff; reflexivity|exact K1]. }
  specialize (D2 Pl). rewrite Dr in D1, D2.
  assert (Leg : forall h t, rq_derive r' (CHeader h) = Done (Some t) -> legible (as_mock r') h).
  { intros h t X v Y. cbn [as_mock mr_headers] in Y. apply rq_header_derive in X. destruct X as [X Z]. congruence. }
  assert (Ld : legible (as_mock r') $"digest").
  { assert (Dg' : ~ rq_readable r $"digest").
    { intros (v & vs & E & _). unfold first_value in Dg. rewrite E in Dg. discriminate Dg. }
    pose proof (rq_digest_after cr r r' c env _ Hc S H Dg' Cd Dd) as Dig.
    destruct (rq_frame cr r r' c env _ Hc S H) as (_ & _ & Bc & _). pose proof (ar_body _ _ Ar) as Ba.
    assert (Cases : (exists t, rq_derive r' (CHeader $"digest") = Done (Some t)) \/ rq_bod r = BNone).
    { destruct Hs as [[-> Ns']| ->]; cbn [cr_compute_digest rq_async rq_blocking] in Dig; unfold rq_async_digest, rq_blocking_digest in Dig;
        destruct (rq_bod r) as [|b|[b|]] eqn:Eb; cbn [snd option_map body_content] in Dig, Bc;
        try (exfalso; now apply (Ns' _ Eb)); destruct (rq_bod r') as [|b'|[b'|]]; cbn [body_content] in Bc; try discriminate Bc;
        try contradiction Ba; try (right; reflexivity); left; eauto. }
    destruct Cases as [(t & Ht)|Hn]; [exact (Leg _ _ Ht)|].
    intros v Y. cbn [as_mock mr_headers] in Y. unfold first_value in *. rewrite (rq_no_body cr r r' c env _ Hc S (or_introl Hn) H) in Y.
    destruct (hm_get_all (rq_headers r) $"digest"); discriminate. }
  assert (E : verdict_of (verify ax_server a vc venv) = Accepted (sc_key_id c)).
  { rewrite (ax_verdict (as_mock r') a vc venv); [now rewrite V|exact SR| | |].
    - destruct Ne as [N1 N2]. cbn [as_mock mr_body]. destruct (rq_bod r') as [|b|[b|]]; congruence.
    - constructor; [exact (Leg _ _ D1)|]. constructor; [exact (Leg _ _ D2)|]. constructor; [exact Ld|constructor].
    - intros input cc q Hi Pi I. assert (input = $"sig=" ++ sp) as ->.
      { unfold header_value in Hi. cbn [sr_rl mr_server rl_derive mr_rl] in Hi. apply rq_header_derive in D1.
        assert (X : mr_derive (as_mock r') (CHeader $"signature-input") = Done (Some ($"sig=" ++ sp))) by (apply mr_header_derive; left; exact D1).
        rewrite X in Hi. now injection Hi as <-. }
      pose proof (input_reads_unique _ _ _ P Pi) as <-. cbn [cc_components] in I. apply in_map_iff in I. destruct I as (x & <- & I).
      apply Cs in I. destruct I as [I (t & Ht)]. destruct (Ns x I) as [Nsg Nm]. destruct x as [d|h]; cbn [canon_component].
      + split; [discriminate|]. intros (n & Bn & In'). apply Nm. exists n. split; [|exact In']. cbn [dc_item canon_item it_bare] in Bn.
        destruct (it_bare (dc_item d)); cbn in Bn; try discriminate Bn; exact Bn.
      + split; [|intros []]. intros h' E. injection E as <-. apply (Leg h t). revert Ht. cbn [signed_view]. rewrite Dr.
        destruct (list_eq_dec ascii_dec h $"signature") as [->|_]; [destruct Nsg; now left|].
        destruct (list_eq_dec ascii_dec h $"signature-input") as [->|_]; [destruct Nsg; now right|]. trivial. }
  destruct (verify ax_server a vc venv) as [[[rem kid]|rem]|]; try discriminate E. exists rem. cbn [verdict_of] in E. congruence.
Qed.

Lemma ax_header_values (r : actix) (h : str) :
  (forall v, ax_derive r (CHeader h) = Done (Some v) <-> first_value (ax_headers r) h = Some v /\ plain v)
  /\ (ax_derive r (CHeader h) = Done None <-> forall v, first_value (ax_headers r) h = Some v -> ~ plain v).
Proof.
  pose proof (fun t => rq_header_derive (Rq [] (Url [] false [] None None None [] None None) (ax_headers r) BNone) h t) as K.
  cbn [rq_derive rq_headers] in K. cbn [ax_derive]. split; [exact K|]. split.
  - intros N v E P. assert (X := proj2 (K v) (conj E P)). congruence.
  - intro N. destruct (opt_bind (hm_get (ax_headers r) h) hvalue_to_str) as [v|]; [|reflexivity]. destruct (proj1 (K v) eq_refl) as [A B]. now destruct (N v A).
Qed.
Lemma ax_has (r : actix) (q : component) :
  (ax_has_component r q = Done true <-> exists v, ax_derive r q = Done (Some v))
  /\ (ax_has_component r q = Done false <-> ax_derive r q = Done None) /\ (ax_has_component r q = Panic <-> ax_derive r q = Panic).
Proof.
  unfold ax_has_component. destruct (ax_derive r q) as [[v|]|]; cbn [obind].
  - repeat split; try congruence. eauto.
  - repeat split; try congruence. intros (v & H). discriminate H.
  - repeat split; try congruence. intros (v & H). discriminate H.
Qed.
