(** Facts about src/canonicalize.rs and src/signature_input.rs. *)
From Verif Require Export SpecFacts Canonicalize.

(** ** The outcome monad *)
Lemma obind_done {A B} (x : outcome A) (f : A -> outcome B) (b : B) :
  (do a <- x; f a) = Done b <-> exists a, x = Done a /\ f a = Done b.
Proof.
  destruct x as [a|]; cbn; split.
  - intro H. exists a. auto. - intros (a' & E & H). injection E as <-. exact H.
  - discriminate. - intros (a' & E & _). discriminate.
Qed.
Lemma obind_panic {A B} (x : outcome A) (f : A -> outcome B) :
  (do a <- x; f a) = Panic <-> x = Panic \/ exists a, x = Done a /\ f a = Panic.
Proof.
  destruct x as [a|]; cbn; split.
  - intro H. right. exists a. auto. - intros [H|(a' & E & H)]; [discriminate|]. injection E as <-. exact H.
  - auto. - auto.
Qed.
Lemma unwrap_done {A} (o : option A) (a : A) : unwrap o = Done a <-> o = Some a.
Proof. destruct o; cbn; split; congruence. Qed.
Lemma unwrap_panic {A} (o : option A) : unwrap o = Panic <-> o = None.
Proof. destruct o; cbn; split; congruence. Qed.
Lemma omap_done {A B} (f : A -> outcome B) (l : list A) (r : list B) :
  omap f l = Done r <-> Forall2 (fun x y => f x = Done y) l r.
Proof.
  revert r. induction l as [|x l IH]; intro r; cbn [omap].
  - split; [intro H; injection H as <-; constructor|inversion 1; reflexivity].
  - rewrite obind_done. setoid_rewrite obind_done. split.
    + intros (y & Hy & ys & Hys & E). injection E as <-. constructor; [exact Hy|now apply IH].
    + inversion 1; subst. exists y. split; [assumption|]. exists l'. split; [now apply IH|reflexivity].
Qed.
Lemma omap_panic {A B} (f : A -> outcome B) (l : list A) :
  omap f l = Panic <-> exists x, In x l /\ f x = Panic.
Proof.
  induction l as [|x l IH]; cbn [omap In].
  - split; [discriminate|]. intros (x & [] & _).
  - rewrite obind_panic. split.
    + intros [H|(y & Hy & H)]; [eauto|]. apply obind_panic in H. destruct H as [H|(ys & _ & H)]; [|discriminate].
      apply IH in H. destruct H as (z & Hz & E). eauto.
    + intros (z & [<-|Hz] & E); [auto|]. destruct (f x) as [y|]; [right|auto].
      exists y. split; [reflexivity|]. apply obind_panic. left. apply IH. eauto.
Qed.

Lemma Forall2_length {A B} (P : A -> B -> Prop) (l : list A) (r : list B) : Forall2 P l r -> List.length l = List.length r.
Proof. induction 1; cbn; congruence. Qed.

Lemma forallb_map {A B} (f : B -> bool) (g : A -> B) (l : list A) : forallb f (map g l) = forallb (fun x => f (g x)) l.
Proof. induction l; cbn; congruence. Qed.

(** ** Deriving all components *)
Definition some_list {A B} (l : list (A * option B)) : list (A * B) :=
  flat_map (fun ab => match snd ab with Some b => [(fst ab, b)] | None => [] end) l.
Notation none_list := lacking.

Lemma derive_all_done {R} (rl : request_like R) (r : R) (cs : list component) (os : list (option str)) :
  Forall2 (fun c o => rl_derive rl r c = Done o) cs os ->
  derive_all rl r cs = Done (some_list (combine cs os), none_list (combine cs os)).
Proof.
  induction 1 as [|c o cs os Hc Hs IH]; [reflexivity|].
  cbn [derive_all combine]. rewrite Hc. cbn [obind]. rewrite IH. cbn [obind].
  destruct o as [v|]; reflexivity.
Qed.
Lemma derive_all_inv {R} (rl : request_like R) (r : R) (cs : list component) x :
  derive_all rl r cs = Done x -> exists os, Forall2 (fun c o => rl_derive rl r c = Done o) cs os
    /\ x = (some_list (combine cs os), none_list (combine cs os)).
Proof.
  revert x. induction cs as [|c cs IH]; intros x H; cbn [derive_all] in H.
  - injection H as <-. exists []. split; [constructor|reflexivity].
  - apply obind_done in H. destruct H as (o & Ho & H). apply obind_done in H. destruct H as ([f m] & Hf & H).
    apply IH in Hf. destruct Hf as (os & Hos & E). injection E as -> ->. injection H as <-.
    exists (o :: os). split; [now constructor|]. destruct o; reflexivity.
Qed.
Lemma derive_all_panic {R} (rl : request_like R) (r : R) (cs : list component) :
  derive_all rl r cs = Panic <-> exists c, In c cs /\ rl_derive rl r c = Panic.
Proof.
  induction cs as [|c cs IH]; cbn [derive_all In].
  - split; [discriminate|]. intros (c & [] & _).
  - rewrite obind_panic. split.
    + intros [H|(o & Ho & H)]; [eauto|]. apply obind_panic in H. destruct H as [H|([f m] & _ & H)]; [|discriminate].
      apply IH in H. destruct H as (z & Hz & E). eauto.
    + intros (z & [<-|Hz] & E); [auto|]. destruct (rl_derive rl r c) as [o|]; [right|auto].
      exists o. split; [reflexivity|]. apply obind_panic. left. apply IH. eauto.
Qed.

Lemma none_list_nil (cs : list component) (os : list (option str)) :
  List.length cs = List.length os ->
  none_list (combine cs os) = [] -> exists vs, os = map Some vs /\ some_list (combine cs os) = combine cs vs.
Proof.
  revert os. induction cs as [|c cs IH]; intros [|o os] L H; try discriminate.
  - exists []. split; reflexivity.
  - destruct o as [v|]; [|discriminate]. destruct (IH os) as (vs & -> & E); [cbn in L; lia|exact H|].
    exists (v :: vs). split; [reflexivity|]. cbn [combine some_list flat_map fst snd app]. f_equal. exact E.
Qed.
Lemma none_list_some (cs : list component) (vs : list str) :
  none_list (combine cs (map Some vs)) = [] /\
  (List.length cs = List.length vs -> some_list (combine cs (map Some vs)) = combine cs vs).
Proof.
  revert vs. induction cs as [|c cs IH]; intros [|v vs]; try (split; [reflexivity|reflexivity || discriminate]).
  destruct (IH vs) as [H1 H2]. split; [exact H1|]. intro L.
  cbn [combine map some_list flat_map fst snd app]. f_equal. apply H2. cbn in L. lia.
Qed.
Lemma none_list_in (cs : list component) (os : list (option str)) (P : component -> option str -> Prop) :
  Forall2 P cs os -> none_list (combine cs os) = [] -> Forall2 (fun c v => P c (Some v)) cs
    (map snd (some_list (combine cs os))).
Proof.
  induction 1 as [|c o cs os Hc Hs IH]; intro H; [constructor|].
  destruct o as [v|]; [|discriminate]. cbn. constructor; [exact Hc|]. now apply IH.
Qed.

(** ** Lines of the base *)
Lemma base_line_done (c : component) (v t : str) : base_line (c, v) = Done t <->
  exists i, identifier_text c i /\ t = i ++ [":"%char; " "%char] ++ v.
Proof.
  unfold base_line. cbn [fst snd]. destruct c as [d|h]; cbn [identifier_text].
  - rewrite obind_done. unfold dc_to_string. split.
    + intros (n & Hn & E). injection E as <-. apply unwrap_done in Hn. exists n.
      split; [now apply item_text_iff|reflexivity].
    + intros (i & Hi & ->). exists i. split; [apply unwrap_done; now apply item_text_iff|reflexivity].
  - split.
    + intro E. injection E as <-. eexists. split; [reflexivity|]. cbn [app]. now rewrite <- app_assoc.
    + intros (i & -> & ->). cbn [app]. f_equal. f_equal. now rewrite <- app_assoc.
Qed.
Definition line_of (iv : str * str) : str := fst iv ++ [":"%char; " "%char] ++ snd iv.
Lemma base_lines_done (cs : list component) (vs ts : list str) : List.length cs = List.length vs ->
  Forall2 (fun cv t => base_line cv = Done t) (combine cs vs) ts <->
  exists ids, Forall2 identifier_text cs ids /\ ts = map line_of (combine ids vs).
Proof.
  revert vs ts. induction cs as [|c cs IH]; intros [|v vs] ts L; try discriminate; cbn [combine].
  - split; [inversion 1; exists []; split; [constructor|reflexivity]|].
    intros (ids & H & ->). inversion H; subst. constructor.
  - cbn in L. split.
    + inversion 1 as [|x t l ts' Ht Hts]; subst. apply base_line_done in Ht. destruct Ht as (i & Hi & ->).
      apply IH in Hts; [|lia]. destruct Hts as (ids & Hids & ->). exists (i :: ids).
      split; [now constructor|reflexivity].
    + intros (ids & H & ->). inversion H as [|x i l ids' Hi Hids]; subst. cbn [combine map]. constructor.
      * apply base_line_done. exists i. split; [exact Hi|reflexivity].
      * apply IH; [lia|]. eauto.
Qed.

Lemma comp_item_eq (c : component) : component_item c = comp_to_item c.
Proof. destruct c; reflexivity. Qed.
Lemma comp_items_eq (cs : list component) : map component_item cs = map comp_to_item cs.
Proof. apply map_ext, comp_item_eq. Qed.

Lemma last_line (sp : str) : base_line (CDerived (dc_new AT_SIGNATURE_PARAMS), sp)
  = Done (s2b """@signature-params"": " ++ sp).
Proof. reflexivity. Qed.

Lemma Forall2_app_last {A B} (P : A -> B -> Prop) (l : list A) (x : A) (r : list B) :
  Forall2 P (l ++ [x]) r <-> exists r' y, r = r' ++ [y] /\ Forall2 P l r' /\ P x y.
Proof.
  split.
  - intro H. apply Forall2_app_inv_l in H. destruct H as (r1 & r2 & H1 & H2 & ->).
    inversion H2 as [|? y ? r' Hy Hr]; subst. inversion Hr; subst. eauto.
  - intros (r' & y & -> & H & Hy). apply Forall2_app; auto.
Qed.

(** The parts of the result of [canonicalize]. *)
Lemma canonicalize_ok {R} (rl : request_like R) (r : R) (cfg : canon_config) (base : str) (si : signature_input) :
  canonicalize rl r cfg = Done (Ok (base, si)) <->
  signature_base (rl_derive rl r) (cc_components cfg) (cc_params cfg) base /\ si = cc_to_signature_input cfg.
Proof.
  unfold canonicalize. split.
  - intro H. apply obind_done in H. destruct H as ([found missing] & H1 & H).
    apply derive_all_inv in H1. destruct H1 as (os & Hos & E). injection E as -> ->.
    pose proof (Forall2_length _ _ _ Hos) as L.
    destruct (none_list (combine (cc_components cfg) os)) eqn:M; [|discriminate].
    destruct (none_list_nil _ _ L M) as (vs & -> & E). rewrite E in H.
    cbv zeta in H. apply obind_done in H. destruct H as (sp & Hsp & H).
    apply obind_done in H. destruct H as (ls & Hls & H). injection H as <- <-. split; [|reflexivity].
    rewrite map_length in L.
    apply unwrap_done in Hsp. apply omap_done in Hls. apply Forall2_app_last in Hls.
    destruct Hls as (ls' & y & -> & Hls & Hy). rewrite last_line in Hy. injection Hy as <-.
    apply base_lines_done in Hls; [|exact L]. destruct Hls as (ids & Hids & ->).
    exists ids, vs, sp. split; [exact Hids|]. split.
    { clear -Hos. remember (cc_components cfg) as cs. clear Heqcs. revert vs Hos.
      induction cs as [|c cs IH]; intros [|v vs] H; inversion H; subst; constructor; auto. }
    split; [rewrite comp_items_eq; now apply inner_text_iff|].
    rewrite lines_join. reflexivity.
  - intros [(ids & vs & sp & Hids & Hvs & Hsp & ->) ->].
    pose proof (Forall2_length _ _ _ Hvs) as L.
    rewrite (derive_all_done rl r _ (map Some vs)).
    2: { clear -Hvs. induction Hvs; constructor; auto. }
    cbn [obind]. destruct (none_list_some (cc_components cfg) vs) as [-> S]. rewrite (S L).
    cbv zeta. rewrite comp_items_eq in Hsp. apply inner_text_iff in Hsp.
    unfold cl_to_string, cc_to_signature_input, si_new, cl_new. cbn [si_list]. rewrite Hsp. cbn [unwrap obind].
    assert (X : omap base_line (combine (cc_components cfg) vs ++ [(CDerived (dc_new AT_SIGNATURE_PARAMS), sp)])
            = Done (map line_of (combine ids vs) ++ [s2b """@signature-params"": " ++ sp])).
    { apply omap_done, Forall2_app_last. eexists _, _. split; [reflexivity|]. split; [|apply last_line].
      apply base_lines_done; [exact L|]. eauto. }
    rewrite X. cbn [obind]. rewrite lines_join. reflexivity.
Qed.

Lemma canonicalize_missing {R} (rl : request_like R) (r : R) (cfg : canon_config) (os : list (option str)) :
  Forall2 (fun c o => rl_derive rl r c = Done o) (cc_components cfg) os ->
  none_list (combine (cc_components cfg) os) <> [] ->
  canonicalize rl r cfg = Done (Err (EMissingComponents (none_list (combine (cc_components cfg) os)))).
Proof.
  intros H N. unfold canonicalize. rewrite (derive_all_done rl r _ os H). cbn [obind].
  destruct (none_list _); [congruence|reflexivity].
Qed.
Lemma canonicalize_no_error {R} (rl : request_like R) (r : R) (cfg : canon_config) (os : list (option str)) e :
  Forall2 (fun c o => rl_derive rl r c = Done o) (cc_components cfg) os ->
  none_list (combine (cc_components cfg) os) = [] ->
  canonicalize rl r cfg <> Done (Err e).
Proof.
  intros H N. unfold canonicalize. rewrite (derive_all_done rl r _ os H). cbn [obind]. rewrite N.
  cbv zeta. intro G. apply obind_done in G. destruct G as (sp & _ & G).
  apply obind_done in G. destruct G as (ls & _ & G). discriminate.
Qed.
Lemma canonicalize_err {R} (rl : request_like R) (r : R) (cfg : canon_config) e :
  canonicalize rl r cfg = Done (Err e) -> exists os,
  Forall2 (fun c o => rl_derive rl r c = Done o) (cc_components cfg) os
  /\ none_list (combine (cc_components cfg) os) <> []
  /\ e = EMissingComponents (none_list (combine (cc_components cfg) os)).
Proof.
  intro G. assert (exists x, derive_all rl r (cc_components cfg) = Done x) as [x Hx].
  { unfold canonicalize in G. apply obind_done in G. destruct G as (x & Hx & _). eauto. }
  apply derive_all_inv in Hx. destruct Hx as (os & Hos & _). exists os. split; [exact Hos|].
  destruct (none_list (combine (cc_components cfg) os)) eqn:E.
  - exfalso. exact (canonicalize_no_error rl r cfg os e Hos E G).
  - rewrite <- E. split; [congruence|]. rewrite (canonicalize_missing rl r cfg os Hos) in G by congruence.
    congruence.
Qed.

(** [canonicalize] panics exactly when a derivation panics, or when everything
    derives and the identifiers or the parameters cannot be serialized. *)
Lemma canonicalize_panic {R} (rl : request_like R) (r : R) (cfg : canon_config) :
  canonicalize rl r cfg = Panic <->
  (exists c, In c (cc_components cfg) /\ rl_derive rl r c = Panic)
  \/ ((exists vs, Forall2 (fun c v => rl_derive rl r c = Done (Some v)) (cc_components cfg) vs)
      /\ ser_inner_list (cl_new (cc_components cfg) (cc_params cfg)) = None).
Proof.
  unfold canonicalize. split.
  - intro H. apply obind_panic in H. destruct H as [H|([found missing] & H1 & H)].
    + left. now apply derive_all_panic.
    + right. apply derive_all_inv in H1. destruct H1 as (os & Hos & E). injection E as -> ->.
      pose proof (Forall2_length _ _ _ Hos) as L.
      destruct (none_list (combine (cc_components cfg) os)) eqn:M; [|discriminate].
      destruct (none_list_nil _ _ L M) as (vs & -> & E). rewrite E in H.
      assert (Hvs : Forall2 (fun c v => rl_derive rl r c = Done (Some v)) (cc_components cfg) vs).
      { clear -Hos. remember (cc_components cfg) as cs. clear Heqcs. revert vs Hos.
        induction cs as [|c cs IH]; intros [|v vs] G; inversion G; subst; constructor; auto. }
      split; [eauto|]. cbv zeta in H. apply obind_panic in H. destruct H as [H|(sp & Hsp & H)].
      * now apply unwrap_panic in H.
      * exfalso. apply unwrap_done in Hsp. apply ser_inner_parts in Hsp. destruct Hsp as (ts & pt & Hts & _ & _).
        apply obind_panic in H. destruct H as [H|(ls & _ & H)]; [|discriminate].
        apply omap_panic in H. destruct H as ([c v] & Hin & H).
        apply in_app_iff in Hin. destruct Hin as [Hin|[Hin|[]]].
        -- unfold base_line in H. cbn [fst snd] in H. destruct c as [d|h]; [|discriminate].
           apply obind_panic in H. destruct H as [H|(n & _ & H)]; [|discriminate].
           apply unwrap_panic in H. apply in_combine_l in Hin.
           cbn [cc_to_signature_input si_new si_list cl_new il_items] in Hts.
           clear -Hin H Hts. remember (cc_components cfg) as cs. clear Heqcs. revert ts Hts.
           induction cs as [|x cs IH]; intros ts Hts; [destruct Hin|]. cbn [map ser_items] in Hts.
           destruct Hin as [->|Hin].
           ++ cbn [comp_to_item] in Hts. rewrite H in Hts. discriminate.
           ++ destruct (ser_item (comp_to_item x)); [|discriminate].
              destruct (ser_items (map comp_to_item cs)) eqn:E; [|discriminate]. now apply (IH Hin _ eq_refl).
        -- injection Hin as <- <-. rewrite last_line in H. discriminate.
  - intros [H|[(vs & Hvs) H]].
    + apply derive_all_panic in H. rewrite H. reflexivity.
    + pose proof (Forall2_length _ _ _ Hvs) as L. rewrite (derive_all_done rl r _ (map Some vs)).
      2: { clear -Hvs. induction Hvs; constructor; auto. }
      cbn [obind]. destruct (none_list_some (cc_components cfg) vs) as [-> _].
      cbv zeta. unfold cl_to_string, cc_to_signature_input, si_new. cbn [si_list]. rewrite H. reflexivity.
Qed.

(** ** Congruence *)
Lemma derive_all_ext {R S} (rl : request_like R) (sl : request_like S) (r : R) (s : S) (cs : list component) :
  (forall c, In c cs -> rl_derive rl r c = rl_derive sl s c) -> derive_all rl r cs = derive_all sl s cs.
Proof.
  induction cs as [|c cs IH]; intro H; [reflexivity|]. cbn [derive_all].
  rewrite (H c) by now left. rewrite IH by (intros; apply H; now right). reflexivity.
Qed.
Lemma canonicalize_ext {R S} (rl : request_like R) (sl : request_like S) (r : R) (s : S) (cfg : canon_config) :
  (forall c, In c (cc_components cfg) -> rl_derive rl r c = rl_derive sl s c) ->
  canonicalize rl r cfg = canonicalize sl s cfg.
Proof. intro H. unfold canonicalize. now rewrite (derive_all_ext rl sl r s _ H). Qed.

(** ** Representable values serialize *)
Lemma key_rep_good (k : str) : key_rep k <-> key_good k.
Proof.
  unfold key_rep, key_good. split; intros [H1 H2]; (split; [exact H1|]).
  - apply key_text_iff in H2. congruence.
  - destruct (ser_key k) as [t|] eqn:E; [|congruence]. pose proof (ser_key_some k t E) as (-> & _).
    now apply key_text_iff.
Qed.
Lemma bare_rep_good (b : bare) : bare_rep b -> bare_good b.
Proof.
  destruct b as [d|z|s|bs|x|s]; cbn [bare_rep]; unfold bare_good; intro H; (split; [try discriminate|]).
  - cbn [ser_bare]. destruct H as [H1 H2]. unfold ser_decimal, round3. replace (d_scale d <=? 3)%nat with true by lia.
    assert (P : (10 ^ N.of_nat (d_scale d) <> 0)%N) by (apply N.pow_nonzero; lia).
    cbv zeta. rewrite ltb12_len; [destruct (_ =? 0)%N; discriminate|].
    apply N.div_lt_upper_bound; [exact P|]. rewrite N.mul_comm, <- N.pow_add_r. exact H2.
  - cbn [ser_bare]. unfold ser_integer, sfv_int_max. replace (_ && _) with true by lia. discriminate.
  - cbn [ser_bare]. unfold ser_string. apply visible_all in H. rewrite H. discriminate.
  - discriminate.
  - discriminate.
  - destruct H as [H _]. congruence.
  - destruct H as [_ H]. apply token_text_iff in H. cbn [ser_bare]. congruence.
Qed.
Lemma params_rep_good (p : params) : params_rep p -> params_good p.
Proof.
  intros [H1 H2]. split; [exact H1|]. intros kv Hin. rewrite Forall_forall in H2.
  destruct (H2 kv Hin) as [Hk Hb]. split; [now apply key_rep_good|now apply bare_rep_good].
Qed.
Lemma header_name_ok (h : str) : header_name h <-> hname_ok h = true.
Proof.
  unfold header_name, hname_ok. rewrite !andb_true_iff, N.leb_le.
  assert (E : Forall (fun c => tchar c /\ ~ (65 <= N_of_ascii c <= 90)%N) h
              <-> forallb (fun c => is_tchar c && negb (is_upper c)) h = true).
  { apply forall_iff. intro c. rewrite andb_true_iff, tchar_iff. unfold is_upper, in_range, code.
    apply and_iff_compat_l. lia. }
  rewrite E. destruct h; cbn [negb]; intuition congruence.
Qed.
Lemma to_lower_id (c : ascii) : is_upper c = false -> to_lower c = c.
Proof. unfold to_lower. now intros ->. Qed.
Lemma hname_parse_ok (h : str) : hname_ok h = true -> hname_parse h = Some h.
Proof.
  unfold hname_ok, hname_parse. intro H. apply andb_true_iff in H. destruct H as [H1 H2]. rewrite H1.
  assert (T : forallb is_tchar h = true).
  { eapply forallb_impl; [|exact H2]. intros c Hc. now apply andb_true_iff in Hc. }
  rewrite T. cbn [andb]. f_equal. rewrite <- (map_id h) at 2. apply map_ext_in. intros c Hc.
  apply to_lower_id. rewrite forallb_forall in H2. specialize (H2 c Hc). apply andb_true_iff in H2.
  destruct H2 as [_ H2]. now destruct (is_upper c).
Qed.
Lemma to_lower_tchar (c : ascii) : is_tchar c = true -> is_tchar (to_lower c) = true /\ is_upper (to_lower c) = false.
Proof.
  assert (E : forallb (fun c => negb (is_tchar c) || (is_tchar (to_lower c) && negb (is_upper (to_lower c)))) all_bytes = true)
    by (vm_compute; reflexivity).
  pose proof (byte_all _ E c) as B. cbv beta in B. intro H. rewrite H in B. cbn [negb orb] in B.
  apply andb_true_iff in B. destruct B as [B1 B2]. split; [exact B1|]. now destruct (is_upper (to_lower c)).
Qed.
Lemma hname_parse_some (s h : str) : hname_parse s = Some h -> hname_ok h = true /\ h = map to_lower s.
Proof.
  unfold hname_parse. destruct (negb _ && _ && forallb is_tchar s) eqn:E; [|discriminate].
  intro H. injection H as <-. split; [|reflexivity]. apply andb_true_iff in E. destruct E as [E1 E2].
  unfold hname_ok. rewrite map_length. destruct s as [|c s]; [discriminate|]. cbn [negb] in E1.
  cbn [map negb andb] in E1 |- *. cbn [List.length] in E1 |- *. rewrite E1. cbn [andb]. change (to_lower c :: map to_lower s) with (map to_lower (c :: s)).
  rewrite forallb_map. eapply forallb_impl; [|exact E2]. intros x Hx. destruct (to_lower_tchar x Hx) as [-> ->].
  reflexivity.
Qed.
Lemma hname_no_at (h : str) : hname_ok h = true -> starts_with $"@" h = false.
Proof.
  unfold hname_ok. intro H. apply andb_true_iff in H. destruct H as [_ H]. destruct h as [|c h]; [reflexivity|].
  cbn [forallb] in H. apply andb_true_iff in H. destruct H as [H _]. cbn [s2b list_ascii_of_string starts_with].
  destruct (Ascii.eqb "@" c) eqn:E; [|reflexivity]. apply Ascii.eqb_eq in E. subst c. discriminate.
Qed.
Lemma hname_visible (h : str) : hname_ok h = true -> forallb is_visible h = true.
Proof.
  unfold hname_ok. intro H. apply andb_true_iff in H. destruct H as [_ H].
  eapply forallb_impl; [|exact H]. intros c Hc.
  assert (E : forallb (fun c => negb (is_tchar c && negb (is_upper c)) || is_visible c) all_bytes = true)
    by (vm_compute; reflexivity).
  pose proof (byte_all _ E c) as B. cbv beta in B. rewrite Hc in B. exact B.
Qed.
Lemma hname_no_escape (h : str) : hname_ok h = true -> escape h = h.
Proof.
  unfold hname_ok. intro H. apply andb_true_iff in H. destruct H as [_ H].
  induction h as [|c h IH]; [reflexivity|]. cbn [forallb] in H. apply andb_true_iff in H. destruct H as [Hc Hs].
  cbn [escape]. rewrite IH by exact Hs.
  assert (E : forallb (fun c => negb (is_tchar c && negb (is_upper c)) || negb (Ascii.eqb c ch_bslash || Ascii.eqb c ch_quote)) all_bytes = true)
    by (vm_compute; reflexivity).
  pose proof (byte_all _ E c) as B. cbv beta in B. rewrite Hc in B. cbn [negb orb] in B.
  destruct (Ascii.eqb c ch_bslash || Ascii.eqb c ch_quote); [discriminate|reflexivity].
Qed.
Lemma ser_header_item (h : str) : hname_ok h = true ->
  ser_item (Item (BString h) []) = Some ([ch_quote] ++ h ++ [ch_quote]).
Proof.
  intro H. unfold ser_item. cbn [it_bare it_params ser_bare ser_params]. unfold ser_string.
  rewrite (hname_visible h H), (hname_no_escape h H). now rewrite app_nil_r.
Qed.

Lemma component_rep_good (c : component) : component_rep c -> item_good (comp_to_item c).
Proof.
  destruct c as [d|h]; cbn [component_rep comp_to_item].
  - intros (n & E & Hn & Hp). split; [|now apply params_rep_good]. rewrite E.
    apply bare_rep_good. cbn. constructor; [vm_compute; split; discriminate|exact Hn].
  - intro H. apply header_name_ok in H. split; [|apply nil_good]. cbn [it_bare].
    apply bare_rep_good. apply visible_all, hname_visible, H.
Qed.
Lemma components_rep_good (cs : list component) (p : params) :
  Forall component_rep cs -> params_rep p -> inner_good (cl_new cs p).
Proof.
  intros Hc Hp. split; [|now apply params_rep_good]. intros i Hi. cbn [cl_new il_items] in Hi.
  apply in_map_iff in Hi. destruct Hi as (c & <- & Hin). apply component_rep_good.
  rewrite Forall_forall in Hc. now apply Hc.
Qed.

(** The identifier of a representable component is the text of its item. *)
Lemma identifier_item (c : component) (t : str) : component_rep c ->
  (identifier_text c t <-> ser_item (comp_to_item c) = Some t).
Proof.
  destruct c as [d|h]; cbn [component_rep identifier_text comp_to_item]; intro H.
  - apply item_text_iff.
  - apply header_name_ok in H. rewrite ser_header_item by exact H. split; [intros ->; reflexivity|intro E; injection E as <-; reflexivity].
Qed.

(** ** Serialization does not see the difference between a value and its canonical form *)
Lemma ser_canon_dec (d : decimal) : ser_decimal (canon_dec d) = ser_decimal d.
Proof.
  unfold ser_decimal at 2. unfold canon_dec. pose proof (round3_scale d) as Hs.
  set (e := round3 d) in *. clearbody e. cbv zeta.
  destruct (d_mant e mod 10 ^ N.of_nat (d_scale e) =? 0)%N eqn:E.
  - unfold ser_decimal, round3. cbn [d_neg d_mant d_scale]. change (1 <=? 3)%nat with true. cbv zeta iota.
    cbn [d_neg d_mant d_scale]. change (10 ^ N.of_nat 1)%N with 10%N.
    set (q := (d_mant e / 10 ^ N.of_nat (d_scale e))%N).
    replace (10 * q / 10)%N with q by lia. replace (10 * q mod 10)%N with 0%N by lia. reflexivity.
  - unfold ser_decimal, round3. replace (d_scale e <=? 3)%nat with true by lia. cbv zeta. now rewrite E.
Qed.
Lemma ser_canon_bare (b : bare) : ser_bare (canon_bare b) = ser_bare b.
Proof. destruct b; cbn; try reflexivity. apply ser_canon_dec. Qed.
Lemma canon_bare_true (b : bare) : canon_bare b = BBoolean true <-> b = BBoolean true.
Proof. destruct b; cbn; split; congruence. Qed.
Lemma ser_canon_params (p : params) : ser_params (canon_params p) = ser_params p.
Proof.
  induction p as [|[k v] p IH]; [reflexivity|]. cbn [canon_params map fst snd ser_params].
  fold (canon_params p). rewrite IH.
  replace (ser_param (k, canon_bare v)) with (ser_param (k, v)); [reflexivity|].
  destruct (bare_true_dec v) as [->|N]; [reflexivity|].
  rewrite !ser_param_value; [now rewrite ser_canon_bare|rewrite canon_bare_true; exact N|exact N].
Qed.
Lemma ser_canon_item (i : item) : ser_item (canon_item i) = ser_item i.
Proof. unfold ser_item, canon_item. cbn [it_bare it_params]. now rewrite ser_canon_bare, ser_canon_params. Qed.
Lemma ser_canon_items (l : list item) : ser_items (map canon_item l) = ser_items l.
Proof. induction l as [|i l IH]; [reflexivity|]. cbn [map ser_items]. now rewrite ser_canon_item, IH. Qed.
Lemma ser_canon_inner (l : inner_list) : ser_inner_list (canon_inner l) = ser_inner_list l.
Proof. unfold ser_inner_list, canon_inner. cbn [il_items il_params]. now rewrite ser_canon_items, ser_canon_params. Qed.

(** Canonical forms of representable values have the same value. *)
Lemma canon_rep_same (b : bare) : bare_rep b -> same_bare (canon_bare b) b.
Proof.
  intro H. apply canon_bare_same. right. intros d ->. cbn in H. lia.
Qed.
Lemma canon_params_same (p : params) : (forall kv, In kv p -> same_bare (canon_bare (snd kv)) (snd kv)) -> same_params (canon_params p) p.
Proof.
  induction p as [|[k v] p IH]; intro H; [constructor|]. cbn [canon_params map fst snd].
  constructor; [split; [reflexivity|apply (H (k, v)); now left]|]. apply IH. intros kv Hin. apply H. now right.
Qed.
Lemma params_rep_same (p : params) : params_rep p -> same_params (canon_params p) p.
Proof.
  intros [_ H]. apply canon_params_same. intros kv Hin. apply canon_rep_same.
  rewrite Forall_forall in H. now apply H.
Qed.
Lemma same_params_refl (p : params) : same_params p p.
Proof. induction p; constructor; auto using same_bare_refl. Qed.
Lemma same_params_sym (p q : params) : same_params p q -> same_params q p.
Proof. induction 1 as [|x y p q [H1 H2] _ IH]; constructor; auto using same_bare_sym. Qed.
Lemma same_params_trans (p q r : params) : same_params p q -> same_params q r -> same_params p r.
Proof.
  intro H. revert r. induction H as [|x y p q [H1 H2] _ IH]; intros r G; inversion G as [|? z ? r' [G1 G2] G3]; subst; constructor.
  - split; [congruence|eauto using same_bare_trans].
  - now apply IH.
Qed.
Lemma same_item_sym (i j : item) : same_item i j -> same_item j i.
Proof. intros [H1 H2]. split; auto using same_bare_sym, same_params_sym. Qed.
Lemma same_item_trans (i j k : item) : same_item i j -> same_item j k -> same_item i k.
Proof. intros [H1 H2] [H3 H4]. split; eauto using same_bare_trans, same_params_trans. Qed.
Lemma component_rep_same (c : component) : component_rep c -> same_item (canon_item (comp_to_item c)) (comp_to_item c).
Proof.
  destruct c as [d|h]; cbn [component_rep comp_to_item].
  - intros (n & E & _ & Hp). split; cbn [canon_item it_bare it_params].
    + rewrite E. reflexivity. + now apply params_rep_same.
  - intros _. split; [reflexivity|constructor].
Qed.

(** Equal items of representable components: same component. *)
Lemma same_item_component (a b : component) : component_rep a -> component_rep b ->
  same_item (comp_to_item a) (comp_to_item b) -> same_component a b.
Proof.
  assert (X : forall h d, component_rep (CHeader h) -> component_rep (CDerived d) ->
                same_bare (BString h) (it_bare (dc_item d)) -> False).
  { intros h d Hh (n & E & _ & _) S. rewrite E in S. cbn in S. injection S as ->.
    apply header_name_ok in Hh. apply hname_no_at in Hh. discriminate. }
  destruct a as [d|h], b as [d'|h']; cbn [comp_to_item same_component]; intros Ha Hb S.
  - exact S.
  - exfalso. destruct S as [S _]. cbn in S. apply same_bare_sym in S. exact (X h' d Hb Ha S).
  - exfalso. destruct S as [S _]. cbn [it_bare] in S. exact (X h d' Ha Hb S).
  - destruct S as [S _]. cbn in S. congruence.
Qed.

Lemma Forall2_same_components (l1 l2 : list component) : Forall component_rep l1 -> Forall component_rep l2 ->
  map canon_item (map comp_to_item l1) = map canon_item (map comp_to_item l2) -> Forall2 same_component l1 l2.
Proof.
  intros H. revert l2. induction H as [|a l1 Ha H IH]; intros [|b l2] G E; try discriminate; constructor.
  - inversion G; subst. cbn [map] in E. assert (E' : canon_item (comp_to_item a) = canon_item (comp_to_item b)) by congruence.
    apply same_item_component; try assumption.
    eapply same_item_trans; [apply same_item_sym, component_rep_same; assumption|]. rewrite E'.
    now apply component_rep_same.
  - inversion G; subst. apply IH; [assumption|]. cbn [map] in E. congruence.
Qed.

(** Equal texts of representable lists. *)
Lemma inner_text_binds (cs1 cs2 : list component) (p1 p2 : params) (t : str) :
  Forall component_rep cs1 -> Forall component_rep cs2 -> params_rep p1 -> params_rep p2 ->
  ser_inner_list (cl_new cs1 p1) = Some t -> ser_inner_list (cl_new cs2 p2) = Some t ->
  canon_inner (cl_new cs1 p1) = canon_inner (cl_new cs2 p2).
Proof.
  intros C1 C2 P1 P2 H1 H2.
  pose proof (parse_ser_inner _ t [] H1 (inner_good_ne _ (components_rep_good _ _ C1 P1)) I) as A.
  pose proof (parse_ser_inner _ t [] H2 (inner_good_ne _ (components_rep_good _ _ C2 P2)) I) as B.
  rewrite A in B. injection B as E1 E2. unfold canon_inner, cl_new. cbn [il_items il_params]. congruence.
Qed.

(** ** Splitting a base into lines *)
Lemma split_app_gen (c : ascii) (a b : str) : split c (a ++ c :: b) = split c a ++ split c b.
Proof.
  induction a as [|x a IH]; cbn [app split].
  - now rewrite Ascii.eqb_refl.
  - rewrite IH. destruct (Ascii.eqb x c); [reflexivity|].
    destruct (split c a) as [|p ps] eqn:E; [now apply split_nonempty in E|reflexivity].
Qed.
Lemma split_join_gen (c : ascii) (l : list str) : l <> [] -> split c (join [c] l) = List.concat (map (split c) l).
Proof.
  induction l as [|x l IH]; [congruence|]. intros _. destruct l as [|y l].
  - cbn. now rewrite app_nil_r.
  - rewrite join_cons. change ([c] ++ join [c] (y :: l)) with (c :: join [c] (y :: l)).
    rewrite split_app_gen, IH by discriminate. reflexivity.
Qed.
Lemma printable_no_lf (s : str) : printable s = true -> ~ In ch_lf s.
Proof.
  unfold printable. intros H Hin. rewrite forallb_forall in H. specialize (H _ Hin). vm_compute in H. discriminate.
Qed.
Lemma visible_no_lf (s : str) : Forall visible s -> ~ In ch_lf s.
Proof. intro H. apply printable_no_lf. now apply visible_all. Qed.

Lemma split_count (s : str) : List.length (split ch_lf s) = S (lf_count s).
Proof.
  induction s as [|x s IH]; [reflexivity|]. unfold lf_count in *. cbn [split count_occ].
  destruct (Ascii.eqb_spec x ch_lf) as [->|N].
  - destruct (ascii_dec ch_lf ch_lf); [|congruence]. cbn [List.length]. now rewrite IH.
  - destruct (ascii_dec x ch_lf); [congruence|].
    destruct (split ch_lf s) as [|p ps]; [discriminate|]. exact IH.
Qed.
Lemma lf_count_app (a b : str) : lf_count (a ++ b) = (lf_count a + lf_count b)%nat.
Proof. apply count_occ_app. Qed.
Lemma lf_count_none (s : str) : ~ In ch_lf s <-> lf_count s = 0%nat.
Proof. apply count_occ_not_In. Qed.

(** The last line of two equal bases. *)
Lemma base_last (l1 l2 : list str) (x1 x2 : str) : ~ In ch_lf x1 -> ~ In ch_lf x2 ->
  lines (l1 ++ [x1]) = lines (l2 ++ [x2]) ->
  x1 = x2 /\ List.concat (map (split ch_lf) l1) = List.concat (map (split ch_lf) l2).
Proof.
  intros H1 H2 E. rewrite !lines_join in E. apply (f_equal (split ch_lf)) in E.
  rewrite !split_join_gen in E by (destruct l1, l2; discriminate).
  rewrite !map_app, !List.concat_app in E. cbn [map List.concat] in E.
  rewrite !split_nosep, !app_nil_r in E by assumption. apply app_inj_tail in E. tauto.
Qed.

(** Chunks of equal sizes of equal lists. *)
Lemma concat_chunks {A} (l1 l2 : list (list A)) : List.concat l1 = List.concat l2 ->
  Forall2 (fun a b => List.length a = List.length b) l1 l2 -> l1 = l2.
Proof.
  intros E H. induction H as [|a b l1 l2 L H IH]; [reflexivity|]. cbn [List.concat] in E.
  assert (a = b /\ List.concat l1 = List.concat l2) as [-> E'].
  { clear IH H. revert b L E. induction a as [|x a IHa]; intros [|y b] L E; try discriminate; [now split|].
    cbn in E. injection E as -> E. destruct (IHa b) as [-> ->]; [cbn in L; lia|exact E|]. now split. }
  f_equal. now apply IH.
Qed.

(** Values are bound when every component has the same number of line feeds in both. *)
Lemma values_bound (ids vs1 vs2 : list str) :
  List.length ids = List.length vs1 -> List.length ids = List.length vs2 ->
  Forall2 (fun a b => lf_count a = lf_count b) vs1 vs2 ->
  List.concat (map (split ch_lf) (map line_of (combine ids vs1)))
  = List.concat (map (split ch_lf) (map line_of (combine ids vs2))) -> vs1 = vs2.
Proof.
  intros L1 L2 F E. apply concat_chunks in E.
  - revert ids L1 L2 E. clear F. intros ids. revert vs1 vs2. induction ids as [|i ids IH]; intros [|v1 vs1] [|v2 vs2] L1 L2 E; try discriminate; [reflexivity|].
    cbn [combine map] in E. assert (E1 : split ch_lf (line_of (i, v1)) = split ch_lf (line_of (i, v2))) by congruence.
    assert (E2 : map (split ch_lf) (map line_of (combine ids vs1)) = map (split ch_lf) (map line_of (combine ids vs2))) by congruence.
    apply (f_equal (join [ch_lf])) in E1. rewrite !join_split in E1. unfold line_of in E1. cbn [fst snd] in E1.
    apply app_inv_head in E1. apply app_inv_head in E1. subst v2. f_equal. apply IH; cbn in *; congruence || lia.
  - clear E. revert ids L1 L2. induction F as [|v1 v2 vs1 vs2 H F IH]; intros [|i ids] L1 L2; try discriminate; [constructor|].
    cbn [combine map]. constructor; [|apply IH; cbn in *; lia].
    rewrite !split_count. unfold line_of. cbn [fst snd]. rewrite !lf_count_app. congruence.
Qed.

(** When all components but one have line-feed-free values, the number of line feeds of
    that one is the same in two equal bases. *)
Lemma lines_lf_sum (ids vs : list str) : List.length ids = List.length vs ->
  List.length (List.concat (map (split ch_lf) (map line_of (combine ids vs))))
  = (List.length ids + list_sum (map lf_count ids) + list_sum (map lf_count vs))%nat.
Proof.
  revert vs. induction ids as [|i ids IH]; intros [|v vs] L; try discriminate; [reflexivity|].
  cbn [combine map List.concat]. rewrite app_length, split_count, IH by (cbn in L; lia).
  unfold line_of at 1. cbn [fst snd List.length]. rewrite !lf_count_app.
  change (lf_count [":"%char; " "%char]) with 0%nat.
  change (list_sum (lf_count i :: map lf_count ids)) with (lf_count i + list_sum (map lf_count ids))%nat.
  change (list_sum (lf_count v :: map lf_count vs)) with (lf_count v + list_sum (map lf_count vs))%nat. lia.
Qed.

(** ** Functional texts *)
Lemma identifier_fun (c : component) (a b : str) : identifier_text c a -> identifier_text c b -> a = b.
Proof.
  destruct c as [d|h]; cbn [identifier_text]; intros H1 H2; [|congruence].
  apply item_text_iff in H1. apply item_text_iff in H2. congruence.
Qed.
Lemma identifiers_fun (cs : list component) (a b : list str) :
  Forall2 identifier_text cs a -> Forall2 identifier_text cs b -> a = b.
Proof.
  intro H. revert b. induction H as [|c x cs a Hx H IH]; intros b G; inversion G; subst; [reflexivity|].
  f_equal; [eapply identifier_fun; eassumption|now apply IH].
Qed.
Lemma inner_text_printable (l : list item) (p : params) (t : str) : inner_text l p t -> printable t = true.
Proof. intro H. apply inner_text_iff in H. now apply printable_ser_inner in H. Qed.
Lemma last_no_lf (l : list item) (p : params) (sp : str) : inner_text l p sp -> ~ In ch_lf (s2b """@signature-params"": " ++ sp).
Proof.
  intro H. apply inner_text_printable in H. apply printable_no_lf. rewrite printable_app, H. reflexivity.
Qed.

(** ** Print/parse of Signature-Input *)
Lemma comp_from_to_item (c : component) : component_rep c ->
  exists c', comp_from_item (canon_item (comp_to_item c)) = Done c' /\ same_component c' c /\ component_rep c'.
Proof.
  destruct c as [d|h]; cbn [component_rep comp_to_item].
  - intros (n & E & Hn & Hp). unfold comp_from_item. cbn [canon_item it_bare]. rewrite E. cbn [canon_bare as_str unwrap obind].
    change (starts_with $"@" ("@"%char :: n)) with true. cbv iota.
    eexists. split; [reflexivity|]. cbn [same_component dc_item canon_item]. split.
    + split; unfold canon_item; cbn [it_bare it_params];
        [rewrite E; apply same_bare_refl|now apply params_rep_same].
    + exists n. unfold canon_item. cbn [dc_item it_bare it_params]. rewrite E. cbn [canon_bare]. split; [reflexivity|]. split; [exact Hn|].
      destruct Hp as [H1 H2]. split.
      * unfold canon_params. rewrite map_map. cbn [fst]. exact H1.
      * unfold canon_params. apply Forall_map. eapply Forall_impl; [|exact H2]. intros [k v] [Hk Hv]. cbn [fst snd] in *.
        split; [exact Hk|]. destruct v as [dd|z|s|bs|x|s]; cbn [canon_bare]; try exact Hv.
        cbn [bare_rep] in *. destruct Hv as [Hs Hm]. unfold canon_dec, round3. replace (d_scale dd <=? 3)%nat with true by lia.
        destruct (_ =? 0)%N eqn:Z; [|split; assumption]. cbn [d_scale d_mant]. split; [lia|].
        assert (P : (10 ^ N.of_nat (d_scale dd) <> 0)%N) by (apply N.pow_nonzero; lia).
        assert (d_mant dd / 10 ^ N.of_nat (d_scale dd) < 10 ^ 12)%N.
        { apply N.div_lt_upper_bound; [exact P|]. rewrite N.mul_comm, <- N.pow_add_r. exact Hm. }
        change (10 ^ (12 + N.of_nat 1))%N with (10 * 10 ^ 12)%N. lia.
  - intro H. apply header_name_ok in H. unfold comp_from_item. cbn [canon_item it_bare canon_bare as_str unwrap obind].
    rewrite (hname_no_at h H), (hname_parse_ok h H). cbn [unwrap obind]. eexists. split; [reflexivity|].
    split; [reflexivity|]. now apply header_name_ok.
Qed.
Lemma comps_from_to_items (cs : list component) : Forall component_rep cs ->
  exists cs', omap comp_from_item (map canon_item (map comp_to_item cs)) = Done cs' /\ Forall2 same_component cs' cs
              /\ Forall component_rep cs'.
Proof.
  induction 1 as [|c cs Hc H IH]; [exists []; repeat split; constructor|].
  destruct (comp_from_to_item c Hc) as (c' & E & S & P). destruct IH as (cs' & E' & S' & P').
  exists (c' :: cs'). cbn [map omap]. rewrite E. cbn [obind]. rewrite E'. repeat split; constructor; auto.
Qed.

Lemma si_print_parse (label : str) (l : inner_list) : key_good label -> inner_good l ->
  exists t, si_to_string (SignatureInput label l) = Done t /\ printable t = true
            /\ si_parse t = Ok (SignatureInput label (canon_inner l)).
Proof.
  intros [K1 K2] H. unfold si_to_string. cbn [si_label si_list].
  destruct (ser_inner_good l H) as [u Hu].
  destruct (ser_key label) as [kt|] eqn:Ek; [|congruence].
  assert (E : exists t, ser_dict1 label l = Some t /\ printable t = true).
  { unfold ser_dict1. rewrite Ek, Hu. eexists. split; [reflexivity|].
    rewrite !printable_app, (printable_ser_key _ _ Ek), (printable_ser_inner _ _ Hu). reflexivity. }
  destruct E as (t & E & P). exists t. rewrite E. split; [reflexivity|]. split; [exact P|].
  unfold si_parse. rewrite (parse_ser_dict1 label l t E K1 (inner_good_ne l H)). reflexivity.
Qed.

Lemma print_parse_config (cfg : canon_config) : config_rep cfg ->
  exists t cfg', si_to_string (cc_to_signature_input cfg) = Done t
    /\ cc_parse t = Done (Ok cfg')
    /\ cc_get_label cfg' = cc_get_label cfg
    /\ Forall2 same_component (cc_components cfg') (cc_components cfg)
    /\ same_params (cc_params cfg') (cc_params cfg).
Proof.
  intros (Hl & Hc & Hp). apply key_rep_good in Hl.
  destruct (si_print_parse (cc_get_label cfg) _ Hl (components_rep_good _ _ Hc Hp)) as (t & E & _ & P).
  destruct (comps_from_to_items _ Hc) as (cs' & Ec & S & _).
  exists t. eexists. split; [exact E|]. unfold cc_parse. rewrite P. unfold cc_from_signature_input.
  cbn [si_list canon_inner cl_new il_items il_params si_label]. rewrite Ec. cbn [obind]. split; [reflexivity|].
  cbn [cc_get_label cc_label cc_components cc_params]. repeat split; [exact S|]. now apply params_rep_same.
Qed.

(** ** Parsed configurations are representable *)
Lemma good_rep (b : bare) : bare_good b -> bare_small b -> bare_rep b.
Proof.
  destruct b as [d|z|s|bs|x|s]; cbn [bare_rep bare_small]; intros [H1 H2] S; try exact I.
  - split; [lia|]. cbn [ser_bare] in H2. unfold ser_decimal, round3 in H2.
    replace (d_scale d <=? 3)%nat with true in H2 by lia. cbv zeta in H2.
    assert (P : (10 ^ N.of_nat (d_scale d) <> 0)%N) by (apply N.pow_nonzero; lia).
    destruct (12 <? _)%N eqn:L; [congruence|]. apply N.ltb_ge in L.
    assert (L' : (List.length (dec_of_N (d_mant d / 10 ^ N.of_nat (d_scale d))) <= 12)%nat) by lia.
    apply dec_of_N_len in L'; [|lia]. change (N.of_nat 12) with 12%N in L'.
    pose proof (N.div_mod' (d_mant d) (10 ^ N.of_nat (d_scale d))) as DM.
    pose proof (N.mod_lt (d_mant d) _ P) as ML. rewrite N.pow_add_r. nia.
  - cbn [ser_bare] in H2. unfold ser_integer, sfv_int_max in H2. destruct (_ && _) eqn:E; [lia|congruence].
  - cbn [ser_bare] in H2. unfold ser_string in H2. apply visible_all. now destruct (forallb is_visible s).
  - split; [congruence|]. cbn [ser_bare] in H2. apply token_text_iff. unfold ser_token in *.
    destruct (_ && _); [reflexivity|congruence].
Qed.
Lemma params_good_rep (p : params) : params_good p -> params_small p -> params_rep p.
Proof.
  intros [H1 H2] S. split; [exact H1|]. apply Forall_forall. intros kv Hin. destruct (H2 kv Hin) as [Hk Hb].
  split; [now apply key_rep_good|]. apply good_rep; [exact Hb|now apply S].
Qed.
Lemma comp_from_item_rep (i : item) (c : component) : item_good i -> item_small i ->
  comp_from_item i = Done c -> component_rep c.
Proof.
  intros [Gb Gp] [Sb Sp] H. unfold comp_from_item in H. apply obind_done in H. destruct H as (n & Hn & H). apply unwrap_done in Hn.
  destruct (starts_with $"@" n) eqn:E.
  - injection H as <-. cbn [component_rep dc_item]. apply starts_with_spec in E. destruct E as (r & ->).
    exists r. assert (E : it_bare i = BString ("@"%char :: r)).
    { destruct (it_bare i); try discriminate. cbn in Hn. now injection Hn as ->. }
    split; [exact E|]. split; [|now apply params_good_rep].
    pose proof (good_rep _ Gb Sb) as V. rewrite E in V. cbn in V. now inversion V.
  - apply obind_done in H. destruct H as (h & Hh & H). injection H as <-. apply unwrap_done in Hh.
    apply header_name_ok. now apply hname_parse_some in Hh.
Qed.
Lemma comps_from_items_rep (l : list item) (cs : list component) :
  (forall i, In i l -> item_good i /\ item_small i) -> omap comp_from_item l = Done cs -> Forall component_rep cs.
Proof.
  intros G H. apply omap_done in H. induction H as [|i c l cs Hc H IH]; constructor.
  - destruct (G i (or_introl eq_refl)). eapply comp_from_item_rep; eassumption.
  - apply IH. intros j Hj. apply G. now right.
Qed.
Lemma si_parse_good (s : str) (si : signature_input) : si_parse s = Ok si ->
  key_good (si_label si) /\ inner_good (si_list si) /\ inner_small (si_list si).
Proof.
  unfold si_parse. destruct (parse_dictionary s) as [d|] eqn:D; [|discriminate].
  pose proof (parse_dictionary_good s d D) as G. pose proof (parse_dictionary_small s d D) as Sm.
  destruct d as [|[k [i|l]] d]; try discriminate. intro H. injection H as <-. cbn [si_label si_list].
  specialize (G _ (or_introl eq_refl)). specialize (Sm _ (or_introl eq_refl)). cbn [fst snd] in *. tauto.
Qed.
Lemma cc_parse_rep (s : str) (cfg : canon_config) : cc_parse s = Done (Ok cfg) -> config_rep cfg.
Proof.
  unfold cc_parse. destruct (si_parse s) as [si|e] eqn:P; [|discriminate]. apply si_parse_good in P.
  destruct P as (Gk & [Gi Gp] & [Si Sp]).
  intro H. apply obind_done in H. destruct H as (c & Hc & H). injection H as <-.
  unfold cc_from_signature_input in Hc. apply obind_done in Hc.
  destruct Hc as (cs & Hcs & E). injection E as <-. unfold config_rep. cbn [cc_get_label cc_label cc_components cc_params].
  split; [now apply key_rep_good|]. split; [|now apply params_good_rep].
  eapply comps_from_items_rep; [|exact Hcs]. auto.
Qed.
Lemma parsed_base (s : str) (cfg : canon_config) {R} (rl : request_like R) (r : R) :
  cc_parse s = Done (Ok cfg) -> canonicalize rl r cfg = Panic ->
  exists c, In c (cc_components cfg) /\ rl_derive rl r c = Panic.
Proof.
  intros H P. apply cc_parse_rep in H. destruct H as (_ & Hc & Hp).
  apply canonicalize_panic in P. destruct P as [P|[_ P]]; [exact P|].
  destruct (ser_inner_good _ (components_rep_good _ _ Hc Hp)) as [t E]. congruence.
Qed.

(** ** What equal bases have in common *)
Lemma base_binds_config {R S} (rl : request_like R) (sl : request_like S) (r : R) (s : S) (c1 c2 : canon_config)
    (base : str) (si1 si2 : signature_input) :
  Forall component_rep (cc_components c1) -> Forall component_rep (cc_components c2) ->
  params_rep (cc_params c1) -> params_rep (cc_params c2) ->
  canonicalize rl r c1 = Done (Ok (base, si1)) -> canonicalize sl s c2 = Done (Ok (base, si2)) ->
  Forall2 same_component (cc_components c1) (cc_components c2) /\ same_params (cc_params c1) (cc_params c2).
Proof.
  intros C1 C2 P1 P2 H1 H2. apply canonicalize_ok in H1. apply canonicalize_ok in H2.
  destruct H1 as [(ids1 & vs1 & sp1 & _ & _ & T1 & B1) _]. destruct H2 as [(ids2 & vs2 & sp2 & _ & _ & T2 & B2) _].
  rewrite B1 in B2. apply base_last in B2; try (eapply last_no_lf; eassumption). destruct B2 as [E _].
  apply app_inv_head in E. subst sp2. rewrite comp_items_eq in T1, T2.
  apply inner_text_iff in T1. apply inner_text_iff in T2.
  pose proof (inner_text_binds _ _ _ _ sp1 C1 C2 P1 P2 T1 T2) as E. unfold canon_inner, cl_new in E.
  cbn [il_items il_params] in E. injection E as E1 E2. split.
  - now apply Forall2_same_components.
  - eapply same_params_trans; [apply same_params_sym, params_rep_same, P1|]. rewrite E2. now apply params_rep_same.
Qed.

Lemma identifiers_canon (cs1 cs2 : list component) (ids1 ids2 : list str) :
  Forall component_rep cs1 -> Forall component_rep cs2 ->
  map canon_item (map comp_to_item cs1) = map canon_item (map comp_to_item cs2) ->
  Forall2 identifier_text cs1 ids1 -> Forall2 identifier_text cs2 ids2 -> ids1 = ids2.
Proof.
  intros H. revert cs2 ids1 ids2. induction H as [|a cs1 Ha H IH]; intros [|b cs2] ids1 ids2 G E I1 I2; try discriminate.
  - inversion I1; inversion I2; reflexivity.
  - inversion I1 as [|? i1 ? l1 J1 K1]; inversion I2 as [|? i2 ? l2 J2 K2]; subst. inversion G; subst. cbn [map] in E.
    f_equal; [|eapply IH; eauto; congruence].
    apply identifier_item in J1; [|assumption]. apply identifier_item in J2; [|assumption].
    assert (E' : canon_item (comp_to_item a) = canon_item (comp_to_item b)) by congruence.
    apply (f_equal ser_item) in E'. rewrite !ser_canon_item in E'. congruence.
Qed.

Lemma Forall2_combine3 {A B C} (P : A -> C -> Prop) (Q : B -> C -> Prop) (S : A -> B -> Prop) (l1 : list A) (l2 : list B) (vs : list C) :
  Forall2 P l1 vs -> Forall2 Q l2 vs -> Forall2 S l1 l2 ->
  Forall2 (fun a b => S a b /\ exists v, P a v /\ Q b v) l1 l2.
Proof.
  intros H. revert l2. induction H as [|a v l1 vs Ha H IH]; intros l2 G T; inversion T; subst; [constructor|].
  inversion G; subst. constructor; [eauto|]. now apply IH.
Qed.

Lemma base_binds_values {R S} (rl : request_like R) (sl : request_like S) (r : R) (s : S) (c1 c2 : canon_config)
    (base : str) (si1 si2 : signature_input) :
  Forall component_rep (cc_components c1) -> Forall component_rep (cc_components c2) ->
  params_rep (cc_params c1) -> params_rep (cc_params c2) ->
  canonicalize rl r c1 = Done (Ok (base, si1)) -> canonicalize sl s c2 = Done (Ok (base, si2)) ->
  (forall c v, In c (cc_components c1) -> rl_derive rl r c = Done (Some v) -> ~ In ch_lf v) ->
  (forall c v, In c (cc_components c2) -> rl_derive sl s c = Done (Some v) -> ~ In ch_lf v) ->
  Forall2 (fun a b => same_component a b /\ exists v, rl_derive rl r a = Done (Some v) /\ rl_derive sl s b = Done (Some v))
    (cc_components c1) (cc_components c2).
Proof.
  intros C1 C2 P1 P2 H1 H2 L1 L2.
  pose proof (base_binds_config rl sl r s c1 c2 base si1 si2 C1 C2 P1 P2 H1 H2) as [Sm _].
  apply canonicalize_ok in H1. apply canonicalize_ok in H2.
  destruct H1 as [(ids1 & vs1 & sp1 & I1 & V1 & T1 & B1) _]. destruct H2 as [(ids2 & vs2 & sp2 & I2 & V2 & T2 & B2) _].
  rewrite B1 in B2. apply base_last in B2; try (eapply last_no_lf; eassumption). destruct B2 as [E B].
  apply app_inv_head in E. subst sp2. rewrite comp_items_eq in T1, T2.
  apply inner_text_iff in T1. apply inner_text_iff in T2.
  pose proof (inner_text_binds _ _ _ _ sp1 C1 C2 P1 P2 T1 T2) as E. unfold canon_inner, cl_new in E.
  cbn [il_items il_params] in E. injection E as E1 E2.
  pose proof (identifiers_canon _ _ _ _ C1 C2 E1 I1 I2) as <-.
  assert (vs1 = vs2) as <-.
  { apply (values_bound ids1 vs1 vs2).
    - rewrite <- (Forall2_length _ _ _ I1). apply (Forall2_length _ _ _ V1).
    - rewrite <- (Forall2_length _ _ _ I2). apply (Forall2_length _ _ _ V2).
    - assert (N1 : Forall (fun v => lf_count v = 0%nat) vs1).
      { clear -V1 L1. revert L1. induction V1 as [|c v cs vs Hv V IH]; intro L; constructor.
        - apply lf_count_none, (L c v); [now left|exact Hv].
        - apply IH. intros c' v' Hin. apply L. now right. }
      assert (N2 : Forall (fun v => lf_count v = 0%nat) vs2).
      { clear -V2 L2. revert L2. induction V2 as [|c v cs vs Hv V IH]; intro L; constructor.
        - apply lf_count_none, (L c v); [now left|exact Hv].
        - apply IH. intros c' v' Hin. apply L. now right. }
      assert (L : List.length vs1 = List.length vs2).
      { rewrite <- (Forall2_length _ _ _ V1), <- (Forall2_length _ _ _ V2). apply (Forall2_length _ _ _ Sm). }
      clear -N1 N2 L. revert vs2 N2 L. induction N1 as [|v vs1 Hv N1 IH]; intros [|w vs2] N2 L; try discriminate; constructor.
      + inversion N2; congruence. + inversion N2; subst. apply IH; [assumption|cbn in L; lia].
    - exact B. }
  eapply Forall2_combine3; eassumption.
Qed.

(** The same configuration: nothing needs to be representable, and line feeds are harmless
    when each component has as many on both sides. *)
Lemma base_binds_values_same {R S} (rl : request_like R) (sl : request_like S) (r : R) (s : S) (c : canon_config)
    (base : str) (si1 si2 : signature_input) :
  canonicalize rl r c = Done (Ok (base, si1)) -> canonicalize sl s c = Done (Ok (base, si2)) ->
  (forall x v w, In x (cc_components c) -> rl_derive rl r x = Done (Some v) -> rl_derive sl s x = Done (Some w) ->
     lf_count v = lf_count w) ->
  forall x, In x (cc_components c) -> exists v, rl_derive rl r x = Done (Some v) /\ rl_derive sl s x = Done (Some v).
Proof.
  intros H1 H2 L. apply canonicalize_ok in H1. apply canonicalize_ok in H2.
  destruct H1 as [(ids1 & vs1 & sp1 & I1 & V1 & T1 & B1) _]. destruct H2 as [(ids2 & vs2 & sp2 & I2 & V2 & T2 & B2) _].
  rewrite B1 in B2. apply base_last in B2; try (eapply last_no_lf; eassumption). destruct B2 as [_ B].
  pose proof (identifiers_fun _ _ _ I1 I2) as <-.
  assert (vs1 = vs2) as <-.
  { apply (values_bound ids1 vs1 vs2); try exact B.
    - rewrite <- (Forall2_length _ _ _ I1). apply (Forall2_length _ _ _ V1).
    - rewrite <- (Forall2_length _ _ _ I2). apply (Forall2_length _ _ _ V2).
    - clear -V1 V2 L. revert vs2 V2 L. induction V1 as [|c0 v cs vs Hv V IH]; intros vs2 V2 L; inversion V2; subst; constructor.
      + eapply (L c0); eauto. now left.
      + apply IH; [assumption|]. intros x v' w' Hin. apply L. now right. }
  clear -V1 V2. revert V2. induction V1 as [|c0 v cs vs Hv V IH]; intros V2 x Hin; [destruct Hin|].
  inversion V2; subst. destruct Hin as [<-|Hin]; eauto.
Qed.

(** One component may have line feeds if the others have none. *)
Lemma base_binds_one {R S} (rl : request_like R) (sl : request_like S) (r : R) (s : S) (c : canon_config)
    (base : str) (si1 si2 : signature_input) (pre post : list component) (q : component) :
  cc_components c = pre ++ q :: post ->
  canonicalize rl r c = Done (Ok (base, si1)) -> canonicalize sl s c = Done (Ok (base, si2)) ->
  (forall x v, In x (pre ++ post) -> rl_derive rl r x = Done (Some v) -> ~ In ch_lf v) ->
  (forall x v, In x (pre ++ post) -> rl_derive sl s x = Done (Some v) -> ~ In ch_lf v) ->
  forall x, In x (cc_components c) -> exists v, rl_derive rl r x = Done (Some v) /\ rl_derive sl s x = Done (Some v).
Proof.
  intros E H1 H2 L1 L2. pose proof H1 as H1'. pose proof H2 as H2'.
  apply canonicalize_ok in H1'. apply canonicalize_ok in H2'.
  destruct H1' as [(ids1 & vs1 & sp1 & I1 & V1 & T1 & B1) _]. destruct H2' as [(ids2 & vs2 & sp2 & I2 & V2 & T2 & B2) _].
  rewrite B1 in B2. apply base_last in B2; try (eapply last_no_lf; eassumption). destruct B2 as [_ B].
  pose proof (identifiers_fun _ _ _ I1 I2) as <-.
  apply (f_equal (@List.length str)) in B.
  rewrite !lines_lf_sum in B.
  2: { rewrite <- (Forall2_length _ _ _ I2). apply (Forall2_length _ _ _ V2). }
  2: { rewrite <- (Forall2_length _ _ _ I1). apply (Forall2_length _ _ _ V1). }
  assert (Su : list_sum (map lf_count vs1) = list_sum (map lf_count vs2)) by lia. clear B.
  rewrite E in V1, V2.
  apply Forall2_app_inv_l in V1. destruct V1 as (a1 & b1 & A1 & B1' & ->).
  apply Forall2_app_inv_l in V2. destruct V2 as (a2 & b2 & A2 & B2' & ->).
  inversion B1' as [|? v1 ? w1 Q1 W1]; subst. inversion B2' as [|? v2 ? w2 Q2 W2]; subst.
  assert (Z : forall T (tl : request_like T) (t : T) l vs, Forall2 (fun c v => rl_derive tl t c = Done (Some v)) l vs ->
    (forall x v, In x l -> rl_derive tl t x = Done (Some v) -> ~ In ch_lf v) -> list_sum (map lf_count vs) = 0%nat).
  { intros T tl t l vs V. induction V as [|x v l vs Hv V IH]; intro L; [reflexivity|]. cbn [map].
    change (list_sum (lf_count v :: map lf_count vs)) with (lf_count v + list_sum (map lf_count vs))%nat.
    rewrite IH by (intros y w Hy; apply L; now right).
    assert (lf_count v = 0%nat) by (apply lf_count_none, (L x v); [now left|exact Hv]). lia. }
  rewrite !map_app, !list_sum_app in Su. cbn [map] in Su.
  change (list_sum (lf_count v1 :: map lf_count w1)) with (lf_count v1 + list_sum (map lf_count w1))%nat in Su.
  change (list_sum (lf_count v2 :: map lf_count w2)) with (lf_count v2 + list_sum (map lf_count w2))%nat in Su.
  rewrite (Z R rl r pre a1), (Z R rl r post w1), (Z _ sl s pre a2), (Z _ sl s post w2) in Su; try assumption;
    try (intros x v Hx; (apply L1 || apply L2); apply in_app_iff; auto).
  apply (base_binds_values_same rl sl r s c _ si1 si2 H1 H2).
  intros x v w Hin Dv Dw. rewrite E in Hin. apply in_app_iff in Hin.
  assert (O : In x (pre ++ post) -> lf_count v = lf_count w).
  { intro O. specialize (L1 x v O Dv). specialize (L2 x w O Dw). apply lf_count_none in L1. apply lf_count_none in L2. congruence. }
  destruct Hin as [Hin|[<-|Hin]].
  - apply O, in_app_iff. auto.
  - assert (v = v1) by congruence. assert (w = v2) by congruence. subst. lia.
  - apply O, in_app_iff. auto.
Qed.


(** ** Statements as used by the property files *)
Lemma canonicalize_ok_spec {R} (rl : request_like R) (r : R) (cfg : canon_config) base si :
  canonicalize rl r cfg = Done (Ok (base, si)) <->
  signature_base (rl_derive rl r) (cc_components cfg) (cc_params cfg) base
  /\ si = SignatureInput (cc_get_label cfg) (InnerList (map component_item (cc_components cfg)) (cc_params cfg)).
Proof. rewrite canonicalize_ok, comp_items_eq. reflexivity. Qed.
Lemma canonicalize_missing_iff {R} (rl : request_like R) (r : R) (cfg : canon_config) (os : list (option str)) :
  Forall2 (fun c o => rl_derive rl r c = Done o) (cc_components cfg) os ->
  (forall l, canonicalize rl r cfg = Done (Err (EMissingComponents l))
             <-> l <> [] /\ l = lacking (combine (cc_components cfg) os))
  /\ (forall e, canonicalize rl r cfg = Done (Err e) -> exists l, e = EMissingComponents l).
Proof.
  intro H. split.
  - intro l. split.
    + intro G. destruct (lacking (combine (cc_components cfg) os)) eqn:E.
      * exfalso. exact (canonicalize_no_error rl r cfg os _ H E G).
      * rewrite (canonicalize_missing rl r cfg os H) in G by congruence. injection G as <-. rewrite E.
        split; [discriminate|reflexivity].
    + intros [N ->]. now apply canonicalize_missing.
  - intros e G. apply canonicalize_err in G. destruct G as (os' & _ & _ & ->). eauto.
Qed.
Lemma canonicalize_derive_panic {R} (rl : request_like R) (r : R) (cfg : canon_config) :
  (exists c, In c (cc_components cfg) /\ rl_derive rl r c = Panic) -> canonicalize rl r cfg = Panic.
Proof. intro H. apply canonicalize_panic. now left. Qed.
Lemma parsed_reserializes (s : str) (cfg : canon_config) : cc_parse s = Done (Ok cfg) ->
  (forall R (rl : request_like R) (r : R), canonicalize rl r cfg = Panic ->
     exists c, In c (cc_components cfg) /\ rl_derive rl r c = Panic)
  /\ exists t cfg', si_to_string (cc_to_signature_input cfg) = Done t
       /\ cc_parse t = Done (Ok cfg')
       /\ cc_get_label cfg' = cc_get_label cfg
       /\ Forall2 same_component (cc_components cfg') (cc_components cfg)
       /\ same_params (cc_params cfg') (cc_params cfg).
Proof.
  intro H. split.
  - intros R rl r. exact (parsed_base s cfg rl r H).
  - apply print_parse_config. exact (cc_parse_rep s cfg H).
Qed.

(** Computable checks for the examples. *)
Fixpoint nodup_str (l : list str) : bool :=
  match l with [] => true | x :: l' => negb (existsb (str_eqb x) l') && nodup_str l' end.
Lemma NoDup_nodup_str (l : list str) : nodup_str l = true -> NoDup l.
Proof.
  induction l as [|x l IH]; cbn [nodup_str]; intro H; constructor; apply andb_true_iff in H; destruct H as [H1 H2].
  - intro F. apply existsb_str_In in F. rewrite F in H1. discriminate. - now apply IH.
Qed.
Lemma existsb_lf_false (s : str) : existsb (Ascii.eqb ch_lf) s = false -> ~ In ch_lf s.
Proof.
  intros H F. assert (existsb (Ascii.eqb ch_lf) s = true); [|congruence].
  apply existsb_exists. exists ch_lf. split; [exact F|apply Ascii.eqb_refl].
Qed.
Definition bare_goodb (b : bare) : bool :=
  match b with BToken [] => false | _ => true end && match ser_bare b with Some _ => true | None => false end
  && match b with BDecimal d => (1 <=? d_scale d)%nat && (d_scale d <=? 3)%nat | _ => true end.
Definition key_goodb (k : str) : bool :=
  match k with [] => false | _ => true end && match ser_key k with Some _ => true | None => false end.
Definition params_repb (p : params) : bool :=
  nodup_str (map fst p) && forallb (fun kv => key_goodb (fst kv) && bare_goodb (snd kv)) p.
Definition component_repb (c : component) : bool :=
  match c with
  | CHeader h => hname_ok h
  | CDerived d => match it_bare (dc_item d) with
                  | BString (a :: n) => Ascii.eqb a "@" && forallb is_visible n
                  | _ => false end && params_repb (it_params (dc_item d))
  end.
Definition config_repb (cfg : canon_config) : bool :=
  key_goodb (cc_get_label cfg) && forallb component_repb (cc_components cfg) && params_repb (cc_params cfg).
Lemma key_goodb_rep (k : str) : key_goodb k = true -> key_rep k.
Proof.
  unfold key_goodb. intro H. apply andb_true_iff in H. destruct H as [H1 H2]. apply key_rep_good.
  split; [destruct k; congruence|destruct (ser_key k); congruence].
Qed.
Lemma bare_goodb_rep (b : bare) : bare_goodb b = true -> bare_rep b.
Proof.
  unfold bare_goodb. intro H. apply andb_true_iff in H. destruct H as [H H3]. apply andb_true_iff in H. destruct H as [H1 H2].
  apply good_rep; [split|].
  - destruct b as [| | | | |[|]]; congruence. - destruct (ser_bare b); congruence.
  - destruct b; try exact I. cbn [bare_small]. lia.
Qed.
Lemma params_repb_rep (p : params) : params_repb p = true -> params_rep p.
Proof.
  unfold params_repb. intro H. apply andb_true_iff in H. destruct H as [H1 H2].
  split; [now apply NoDup_nodup_str|]. rewrite forallb_forall in H2. apply Forall_forall. intros kv Hin.
  apply H2, andb_true_iff in Hin. destruct Hin. split; [now apply key_goodb_rep|now apply bare_goodb_rep].
Qed.
Lemma component_repb_rep (c : component) : component_repb c = true -> component_rep c.
Proof.
  destruct c as [d|h]; cbn [component_repb component_rep]; intro H; [|now apply header_name_ok].
  apply andb_true_iff in H. destruct H as [H1 H2].
  destruct (it_bare (dc_item d)) as [| |[|a n]| | |]; try discriminate.
  apply andb_true_iff in H1. destruct H1 as [A B]. apply Ascii.eqb_eq in A. subst a. exists n.
  split; [reflexivity|]. split; [now apply visible_all|now apply params_repb_rep].
Qed.
Lemma config_repb_rep (cfg : canon_config) : config_repb cfg = true -> config_rep cfg.
Proof.
  unfold config_repb. intro H. apply andb_true_iff in H. destruct H as [H H3]. apply andb_true_iff in H. destruct H as [H1 H2].
  split; [now apply key_goodb_rep|]. split; [|now apply params_repb_rep].
  rewrite forallb_forall in H2. apply Forall_forall. intros c Hin. now apply component_repb_rep, H2.
Qed.
