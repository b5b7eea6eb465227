(** More about [sign]: the frame on concrete requests, printable parameters, the nonce. *)
From Verif Require Export SignPanic SpecReq Samples.

(** ** Parameters that can be printed *)
Lemma some_text_params (k : str) (v : bare) (p : params) : key_text k k -> v <> BBoolean true ->
  ((exists t, params_text ((k, v) :: p) t) <-> (exists t, bare_text v t) /\ exists t, params_text p t).
Proof.
  intros K V. split.
  - intros (t & H). inversion H; subst; [congruence|]. split; eauto.
  - intros ((a & A) & (b & B)). eexists. apply pt_value; eauto.
Qed.
Lemma key_text_const (k : str) : ser_key k = Some k -> key_text k k.
Proof. apply key_text_iff. Qed.
Lemma stamp_text (c : signing_config) (now : Z) : (exists t, params_text (stamp c now) t) <-> stamp_printable c now.
Proof.
  assert (S : forall s, (exists t, string_text s t) <-> Forall visible s).
  { intro s. split; [now intros (t & H & _)|]. intro H. eexists. split; [exact H|reflexivity]. }
  assert (I : forall z, (exists t, integer_text z t) <-> small_time z).
  { intro z. split; [now intros (t & H & _)|]. intro H. eexists. split; [exact H|].
    exists (dec_of_N (Z.abs_N z)). split; [now apply digits_iff|reflexivity]. }
  assert (T : forall s, (exists t, token_text s t) <-> token_text s s).
  { intro s. split; [intros (t & H1 & H2 & H3); subst t; split; [exact H1|split; [exact H2|reflexivity]]|eauto]. }
  unfold stamp, stamp_printable, opt_param.
  destruct (created_at c now) as [a|], (expires_at c now) as [b|], (sc_nonce c) as [n|]; cbn [app];
    repeat (rewrite some_text_params; [cbn [bare_text]; rewrite ?S, ?I, ?T|now apply key_text_const|discriminate]);
    (split;
     [intros H; (split; [tauto|]); (split; [tauto|]); (split; [|split]); intros x E; (discriminate E || (injection E as <-)); tauto
     |intros (H1 & H2 & H3 & H4 & H5);
      try specialize (H3 _ eq_refl); try specialize (H4 _ eq_refl); try specialize (H5 _ eq_refl);
      repeat (split; [assumption|]); eauto using pt_nil]).
Qed.

Section Client.
  Context {R : Type} (cr : client_request_like R) (L : client_laws cr).
  Let derive := rl_derive (cr_rl cr).

  Lemma component_rep_proper (q : component) : component_rep q -> proper_component q.
  Proof.
    destruct q as [d|h]; cbn [component_rep proper_component].
    - intros (n & E & _). eauto.
    - intro H. apply header_name_ok in H. apply visible_all. now apply hname_visible.
  Qed.
  Lemma component_rep_text (d : derived) : component_rep (CDerived d) -> exists t, item_text (dc_item d) t.
  Proof.
    intro H. apply component_rep_good in H. cbn [comp_to_item] in H. apply ser_item_good in H. destruct H as (t & H).
    exists t. now apply item_text_iff.
  Qed.
  Lemma sign_no_panic (r : R) (c : signing_config) (env : sign_env) :
    auto_safe cr r c env -> Forall component_rep (sc_components c) -> stamp_printable c (seconds (se_sys env)) ->
    exists r' res, sign cr r c env = Done (r', res).
  Proof.
    intros S C P. destruct (sign cr r c env) as [[r' res]|] eqn:E; [eauto|]. exfalso.
    apply (sign_panic_iff cr L r c env S) in E.
    - destruct E as (_ & _ & _ & [U|(d & Hd & _ & U)]).
      + apply U. now apply stamp_text.
      + apply U. rewrite Forall_forall in C. exact (component_rep_text d (C _ Hd)).
    - eapply Forall_impl; [|exact C]. exact component_rep_proper.
  Qed.

  (** *** Coverage *)
  Lemma sign_covers (r r' : R) (c : signing_config) (env : sign_env) :
    auto_safe cr r c env -> Forall proper_component (sc_components c) -> sign cr r c env = Done (r', Ok tt) ->
    exists cs sp,
      (if sc_skip_missing c then keeps (available cr r c) (sc_components c) cs
       else cs = sc_components c /\ forall q, In q cs -> available cr r c q)
      /\ inner_text (map component_item cs) (stamp c (seconds (se_sys env))) sp
      /\ derive r' (CHeader $"signature-input") = Done (Some ($"sig=" ++ sp)).
  Proof.
    intros S P H. destruct (auto_total cr L r c env S P) as (r1 & cs & A & V & C).
    apply (sign_result_of cr r r' c env _ (proj1 S)) in H. destruct H as (r1' & cs' & A' & H). rewrite A in A'. injection A' as <- <-.
    inversion H as [| | | |base sp N1 N2 B I Lg E]; subst. exists cs, sp. split; [|split; [exact I|]].
    - destruct (sc_skip_missing c); [exact C|]. split; [exact C|]. intros q Hq. apply V.
      destruct B as (ids & vals & sp' & _ & F & _). clear - F Hq. induction F; [destruct Hq|].
      destruct Hq as [<-|Hq]; [eexists; eassumption|auto].
    - unfold derive. rewrite (cl_set_other _ L) by discriminate. apply (cl_set _ L). now apply (input_text_plain _ _ _ I).
  Qed.
  Lemma sign_missing (r : R) (c : signing_config) (env : sign_env) :
    auto_safe cr r c env -> Forall proper_component (sc_components c) -> sc_skip_missing c = false ->
    ~ created_late c (seconds (se_sys env)) -> ~ expires_early c (seconds (se_sys env)) ->
    ((exists r', sign cr r c env = Done (r', Err ECanonicalize)) <-> exists q, In q (sc_components c) /\ ~ available cr r c q).
  Proof.
    intros S P K N1 N2. destruct (auto_total cr L r c env S P) as (r1 & cs & A & V & C). rewrite K in C. subst cs. split.
    - intros (r' & H). apply (sign_result_of cr r r' c env _ (proj1 S)) in H. destruct H as (r1' & cs' & A' & H).
      rewrite A in A'. injection A' as <- <-. inversion H as [| |q C1 C2 C3 C4 C5 E| |]; subst. exists q. split; [exact C3|].
      rewrite <- V. intros (v & F). unfold derive in F. congruence.
    - intros (q & Hq & Nq). destruct (sign cr r c env) as [[r' res]|] eqn:E.
      + pose proof E as E'. apply (sign_result_of cr r r' c env _ (proj1 S)) in E. destruct E as (r1' & cs' & A' & H).
        rewrite A in A'. injection A' as <- <-.
        assert (X : forall base, signature_base (derive r1) (sc_components c) (stamp c (seconds (se_sys env))) base -> False).
        { intros base (ids & vals & sp & _ & F & _). apply Nq, V. clear - F Hq. induction F; [destruct Hq|].
          destruct Hq as [<-|Hq]; [eexists; eassumption|auto]. }
        inversion H as [C1|C1 C2|q' C1 C2 C3 C4 C5|base sp C1 C2 B|base sp C1 C2 B]; subst; try contradiction;
          [eexists; reflexivity|exfalso; exact (X base B)..].
      + exfalso. apply (sign_panic_iff cr L r c env S P) in E. destruct E as (_ & _ & [F|F] & _); [congruence|]. exact (Nq (F q Hq)).
  Qed.

  (** *** The nonce *)
  Lemma nonce_token (r r' : R) (c : signing_config) (env : sign_env) (n : str) :
    sys_clock_ok (se_sys env) -> sc_nonce c = Some n -> sign cr r c env = Done (r', Ok tt) ->
    token_text n n /\ exists pre, derive r' (CHeader $"signature-input") = Done (Some (pre ++ $";nonce=" ++ n)).
  Proof.
    intros S N H. apply (sign_ok_facts cr L r r' c env S) in H. cbv zeta in H.
    destruct H as (cs & base & sp & _ & _ & _ & _ & (its & pt & _ & P & ->) & D & _). fold derive in D.
    assert (T : stamp_printable c (seconds (se_sys env))) by (apply stamp_text; eauto).
    split; [now apply T|]. unfold stamp in P. rewrite N in P. cbn [opt_param] in P. rewrite !app_assoc in P.
    match type of P with params_text (?x ++ _) _ => generalize dependent x end. intros p P.
    assert (X : exists pre, pt = pre ++ $";nonce=" ++ n).
    { clear - P. revert pt P. induction p as [|[k v] p IH]; intros pt P; cbn [app] in P.
      - inversion P; subst. match goal with Q : params_text [] _ |- _ => inversion Q; subst end.
        match goal with K : key_text _ _, V : bare_text _ _ |- _ => destruct K as (_ & _ & ->); destruct V as (_ & _ & ->) end.
        exists []. cbn. now rewrite app_nil_r.
      - inversion P; subst; match goal with Q : params_text (p ++ _) _ |- _ => destruct (IH _ Q) as (pre & ->) end; eexists.
        + rewrite 2!app_assoc. reflexivity.
        + rewrite 4!app_assoc. reflexivity. }
    destruct X as (pre & ->). eexists. rewrite D. rewrite 4!app_assoc. reflexivity.
  Qed.
  Lemma nonce_not_token (r : R) (c : signing_config) (env : sign_env) (n : str) :
    let now := seconds (se_sys env) in
    auto_safe cr r c env -> Forall proper_component (sc_components c) -> sc_skip_missing c = true ->
    sc_nonce c = Some n -> ~ token_text n n ->
    (sign cr r c env = Panic <-> ~ created_late c now /\ ~ expires_early c now).
  Proof.
    cbv zeta. intros S P K N T. rewrite (sign_panic_iff cr L r c env S P). split; [tauto|]. intros [H1 H2].
    split; [exact H1|]. split; [exact H2|]. split; [now left|]. left. intro F. apply stamp_text in F. apply T. now apply F.
  Qed.
End Client.

(** ** Frame on the concrete requests *)
Lemma hm_insert_other (m : header_map) (n v k : str) : k <> n -> hm_get_all (hm_insert m n v) k = hm_get_all m k.
Proof. intro N. rewrite hm_insert_get_all. replace (str_eqb n k) with false; [reflexivity|]. symmetry. apply str_eqb_neq. congruence. Qed.
Lemma opt_none {A} (o : option A) : ~ (exists v, o = Some v) -> o = None.
Proof. destruct o as [a|]; [|reflexivity]. intro H. exfalso. eauto. Qed.

Section Frame.
  Context {R : Type} (cr : client_request_like R) (L : client_laws cr).
  Lemma sign_frame_gen (I : R -> Prop) (r r' : R) (c : signing_config) (env : sign_env) (res : result unit error) :
    sys_clock_ok (se_sys env) -> I r ->
    (forall h x v, may_change c (fun k => rl_derive (cr_rl cr) r (CHeader k) <> Done None) h -> I x -> I (cr_set_header cr x h v)) ->
    (forall x d, I x -> I (fst (cr_compute_digest cr x d))) ->
    sign cr r c env = Done (r', res) -> I r'.
  Proof.
    intros S H0 Hs Hd H. apply (sign_result_of cr r r' c env res S) in H. destruct H as (r1 & cs & A & H).
    assert (I1 : I r1).
    { revert A. apply (auto_frame cr L I); [exact H0|..|intros _; exact Hd];
        intros A D x v Hx; apply Hs; try exact Hx; right; right; (split; [intro F; now apply F|]).
      - left. now split. - right. left. now split. - right. right. now split. }
    assert (Si : forall x v, I x -> I (cr_set_header cr x $"signature-input" v)) by (intros; apply Hs; [right; now left|assumption]).
    assert (Sg : forall x v, I x -> I (cr_set_header cr x $"signature" v)) by (intros; apply Hs; [now left|assumption]).
    inversion H; subst; auto.
  Qed.
End Frame.
Lemma may_change_mono (c : signing_config) (P Q : str -> Prop) (h : str) :
  (forall k, Q k -> P k) -> may_change c P h -> may_change c Q h.
Proof. unfold may_change. intros H. intuition. Qed.

Lemma mock_frame (r r' : mock) (c : signing_config) (env : sign_env) (res : result unit error) :
  sys_clock_ok (se_sys env) -> sign mr_client r c env = Done (r', res) ->
  mr_version r' = mr_version r /\ mr_method r' = mr_method r /\ mr_url r' = mr_url r /\ mr_path r' = mr_path r
  /\ mr_body r' = mr_body r
  /\ forall h, ~ may_change c (fun k => hm_get_all (mr_headers r) k <> []) h ->
       hm_get_all (mr_headers r') h = hm_get_all (mr_headers r) h.
Proof.
  intros S H. 
  apply (sign_frame_gen mr_client mr_client_laws (fun r' =>
    mr_version r' = mr_version r /\ mr_method r' = mr_method r /\ mr_url r' = mr_url r /\ mr_path r' = mr_path r
    /\ mr_body r' = mr_body r
    /\ forall h, ~ may_change c (fun k => hm_get_all (mr_headers r) k <> []) h ->
       hm_get_all (mr_headers r') h = hm_get_all (mr_headers r) h) r r' c env res S); [auto 10| | |exact H].
  - intros h x v M (H1 & H2 & H3 & H4 & H5 & H6). cbn -[hm_get_all hm_insert may_change]. repeat split; try assumption. intros k N.
    rewrite hm_insert_other; [now apply H6|]. intros ->. apply N. revert M. apply may_change_mono.
    intros k Hk. cbn. intro E. apply Hk. apply hm_get_all_nil. destruct (hm_get (mr_headers r) k); [discriminate|reflexivity].
  - intros x d. exact (fun H => H).
Qed.
Lemma hm_get_all_head (m : header_map) (h v : str) : hm_get m h = Some v <-> exists vs, hm_get_all m h = v :: vs.
Proof.
  induction m as [|[k w] m IH]; cbn [hm_get].
  - split; [discriminate|intros (vs & F); discriminate F].
  - unfold hm_get_all in *. cbn [filter fst]. destruct (str_eqb k h); cbn [map snd]; [|exact IH].
    split; [intro E; injection E as <-; eauto|intros (vs & F); now injection F as <-].
Qed.
Lemma rq_readable_derive (r : rq) (h : str) : rq_readable r h -> rq_derive r (CHeader h) <> Done None.
Proof.
  intros (v & vs & E & P). cbn. assert (G : hm_get (rq_headers r) h = Some v) by (apply hm_get_all_head; eauto).
  rewrite G. cbn. apply plain_iff in P. rewrite (to_str_visible _ P). discriminate.
Qed.
Lemma rq_frame (cr : client_request_like rq) (r r' : rq) (c : signing_config) (env : sign_env) (res : result unit error) :
  cr = rq_async \/ cr = rq_blocking ->
  sys_clock_ok (se_sys env) -> sign cr r c env = Done (r', res) ->
  rq_method r' = rq_method r /\ rq_url r' = rq_url r /\ body_content (rq_bod r') = body_content (rq_bod r)
  /\ forall h, ~ may_change c (rq_readable r) h -> hm_get_all (rq_headers r') h = hm_get_all (rq_headers r) h.
Proof.
  intros Hc S H. assert (L : client_laws cr) by (destruct Hc as [-> | ->]; [exact rq_async_laws|exact rq_blocking_laws]).
  apply (sign_frame_gen cr L (fun r' =>
    rq_method r' = rq_method r /\ rq_url r' = rq_url r /\ body_content (rq_bod r') = body_content (rq_bod r)
    /\ forall h, ~ may_change c (rq_readable r) h -> hm_get_all (rq_headers r') h = hm_get_all (rq_headers r) h) r r' c env res S);
    [auto| | |exact H].
  - assert (E : cr_set_header cr = rq_set_header /\ rl_derive (cr_rl cr) = rq_derive) by (destruct Hc as [-> | ->]; now split).
    destruct E as [-> ->]. intros h x v M (H1 & H2 & H3 & H4). cbn -[hm_get_all hm_insert may_change]. repeat split; try assumption. intros k N.
    rewrite hm_insert_other; [now apply H4|]. intros ->. apply N. revert M. apply may_change_mono.
    intros k Hk. now apply rq_readable_derive.
  - intros x d. destruct Hc as [-> | ->]; cbn [cr_compute_digest rq_async rq_blocking]; [exact (fun H => H)|].
    unfold rq_blocking_digest. destruct x as [m u hs [| b|[b|]]]; exact (fun H => H).
Qed.
