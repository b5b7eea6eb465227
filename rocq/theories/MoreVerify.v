(** Consequences of the acceptance theorem, and facts about Signature-Input texts with
    several members. *)
From Verif Require Export VerifyFacts ReqFacts TrimFacts SpecMock.

(** ** Clock and options (C13, C15, C21, C24) *)
Section Options.
  Context {S Rem : Type} (sr : server_request_like S Rem) (r : S).

  (** [accepted c env kid]: [verify] returns [Ok] with key id [kid]. *)
  Notation accepted c env kid := (exists rem, verify sr r c env = Done (Ok (rem, kid))).

  Lemma accepted_iff (c : verifying_config) (env : verify_env) (kid : str) : clocks_ok c env ->
    (accepted c env kid <-> accepts sr r c env kid).
  Proof. intros [H1 H2]. now apply verify_iff. Qed.

  Lemma signature_headers_fun (cc cc' : canon_config) (sig sig' kid kid' : str) :
    signature_headers sr r cc sig kid -> signature_headers sr r cc' sig' kid' -> cc = cc' /\ sig = sig' /\ kid = kid'.
  Proof.
    intros H H'. pose proof H' as K'. destruct H as (i & s & Hi & Hp & Hs & Hm & Hk & _).
    destruct H' as (i' & s' & Hi' & Hp' & Hs' & Hm' & Hk' & _).
    unfold header_value in *. rewrite Hi in Hi'. injection Hi' as <-. pose proof (input_reads_unique _ _ _ Hp Hp') as <-.
    rewrite Hs in Hs'. injection Hs' as <-. rewrite Hk in Hk'. injection Hk' as <-.
    apply signature_member_iff in Hm, Hm'. rewrite Hm in Hm'. injection Hm' as <-. auto.
  Qed.

  Lemma clock_interval (c : verifying_config) (e1 e2 e3 : verify_env) (k1 k3 : str) :
    vc_validate_date c = false -> sys_clock_ok (ve_sys e1) -> sys_clock_ok (ve_sys e3) ->
    (ve_sys e1 <= ve_sys e2 <= ve_sys e3)%Z ->
    accepted c e1 k1 -> accepted c e3 k3 -> k1 = k3 /\ accepted c e2 k1.
  Proof.
    intros Hd O1 O3 Hle A1 A3.
    assert (O2 : sys_clock_ok (ve_sys e2)).
    { unfold sys_clock_ok, seconds in *. split; [lia|].
      assert (Q : (ve_sys e2 / 1000000000 <= ve_sys e3 / 1000000000)%Z) by (apply Z.div_le_mono; lia). lia. }
    rewrite accepted_iff in A1, A3 by (split; [assumption|congruence]).
    rewrite accepted_iff by (split; [assumption|congruence]).
    destruct A1 as (cc & sig & H1 & T1 & K1 & R1 & D1 & G1). destruct A3 as (cc3 & sig3 & H3 & T3 & _).
    destruct (signature_headers_fun _ _ _ _ _ _ H1 H3) as (<- & <- & <-). split; [reflexivity|].
    exists cc, sig. split; [exact H1|]. split.
    { assert (Q1 : (seconds (ve_sys e1) <= seconds (ve_sys e2))%Z) by (apply Z.div_le_mono; lia).
      assert (Q2 : (seconds (ve_sys e2) <= seconds (ve_sys e3))%Z) by (apply Z.div_le_mono; lia).
      split; intros t Ht; [apply T1 in Ht|apply T3 in Ht]; lia. }
    split; [exact K1|]. split; [exact R1|]. split; [unfold date_ok; congruence|exact G1].
  Qed.

  Lemma date_check_exact (c : verifying_config) (env : verify_env) (kid : str) :
    sys_clock_ok (ve_sys env) -> utc_clock_ok (ve_utc env) ->
    (accepted (vc_set_validate_date c true) env kid <->
     accepted (vc_set_validate_date c false) env kid
     /\ exists input cc d, header_value sr r $"signature-input" input /\ input_reads input cc
          /\ value_of $"date" (cc_params cc) = Some (BInteger d) /\ (first_date <= d <= last_date)%Z
          /\ (- vc_date_leeway c <= d * 1000000000 - ve_utc env <= vc_date_leeway c)%Z).
  Proof.
    intros O1 O2. rewrite !accepted_iff by (split; auto). split.
    - intros (cc & sig & H & T & K & R & D & G). split.
      + exists cc, sig. split; [exact H|]. split; [exact T|]. split; [exact K|]. split; [exact R|].
        split; [intro F; discriminate F|exact G].
      + destruct (D eq_refl) as (d & D1 & D2 & D3). destruct H as (i & s & Hi & Hp & _).
        exists i, cc, d. auto.
    - intros [(cc & sig & H & T & K & R & _ & G) (i & cc' & d & Hi & Hp & D1 & D2 & D3)].
      pose proof (signature_headers_parse sr r _ _ _ _ H Hi) as Hp'. pose proof (input_reads_unique _ _ _ Hp' Hp) as <-.
      exists cc, sig. split; [exact H|]. split; [exact T|]. split; [exact K|]. split; [exact R|].
      split; [|exact G]. intros _. exists d. auto.
  Qed.

  Lemma bodyless_digest_option (c : verifying_config) (env : verify_env) (kid : str) (b : bool) :
    clocks_ok c env -> fst (sr_complete_with_digest sr r sha256_digest) = None ->
    rl_derive (sr_rl sr) r (CHeader $"digest") = Done None ->
    (accepted (vc_set_require_digest c b) env kid <-> accepted c env kid).
  Proof.
    intros O Hb Hd. rewrite !accepted_iff by exact O.
    split; intros (cc & sig & H & T & K & R & D & _); exists cc, sig; (split; [exact H|]); (split; [exact T|]);
      (split; [exact K|]); (split; [exact R|]); (split; [exact D|]); right; auto.
  Qed.

  Lemma keys_as_set (c : verifying_config) (env : verify_env) (keys : key_provider) (kid : str) : clocks_ok c env ->
    (forall id f, In f (map vf_verify (vc_keys c id)) <-> In f (map vf_verify (keys id))) ->
    (accepted c env kid <->
     accepted (VerifyingConfig keys (vc_digests c) (vc_required c) (vc_require_digest c) (vc_validate_digest c)
                 (vc_validate_date c) (vc_date_leeway c)) env kid).
  Proof.
    intros O Hk. rewrite !accepted_iff by exact O.
    assert (G : forall cc sig, key_accepts sr r c cc sig kid <->
      key_accepts sr r (VerifyingConfig keys (vc_digests c) (vc_required c) (vc_require_digest c) (vc_validate_digest c)
                 (vc_validate_date c) (vc_date_leeway c)) cc sig kid).
    { intros cc sig. unfold key_accepts. cbn [vc_keys].
      split; intros (base & k & B & I & V).
      - assert (I' : In (vf_verify k) (map vf_verify (keys kid))) by (apply Hk, in_map, I).
        apply in_map_iff in I'. destruct I' as (k' & E & I'). exists base, k'. now rewrite E.
      - assert (I' : In (vf_verify k) (map vf_verify (vc_keys c kid))) by (apply Hk, in_map, I).
        apply in_map_iff in I'. destruct I' as (k' & E & I'). exists base, k'. now rewrite E. }
    split; intros (cc & sig & H & T & K & R & D & Gd); exists cc, sig; (split; [exact H|]); (split; [exact T|]);
      (split; [now apply G|]); auto.
  Qed.
End Options.

(** ** Required components through the setter (C17, C18) *)
Lemma sort_insert_in (x : component) (l s : list component) (y : component) :
  sort_insert x l = Done s -> (In y s <-> y = x \/ In y l).
Proof.
  revert s. induction l as [|z l IH]; cbn [sort_insert]; intros s H.
  - injection H as <-. cbn [In]. intuition congruence.
  - destruct (comp_cmp x z) as [o|]; [|discriminate]. cbn [obind] in H.
    destruct o; try (injection H as <-; cbn [In]; intuition congruence).
    destruct (sort_insert x l) as [s'|]; [|discriminate]. cbn [obind] in H. injection H as <-.
    cbn [In]. rewrite (IH s' eq_refl). tauto.
Qed.
Lemma sort_components_in (l s : list component) (y : component) : sort_components l = Done s -> (In y s <-> In y l).
Proof.
  revert s. induction l as [|x l IH]; cbn [sort_components]; intros s H; [injection H as <-; tauto|].
  destruct (sort_components l) as [s'|]; [|discriminate]. cbn [obind] in H.
  rewrite (sort_insert_in x s' s y H), (IH s' eq_refl). cbn [In]. intuition congruence.
Qed.
Lemma dedup_last_sub (l : list component) (y : component) : In y (dedup_last l) -> In y l.
Proof.
  induction l as [|x l IH]; [trivial|]. destruct l as [|z l]; [trivial|].
  cbn [dedup_last] in *. destruct (comp_eqb x z).
  - intro H. right. now apply IH.
  - intros [<-|H]; [now left|right; now apply IH].
Qed.
Lemma dedup_last_header (l : list component) (h : str) : In (CHeader h) l -> In (CHeader h) (dedup_last l).
Proof.
  induction l as [|x l IH]; [trivial|]. destruct l as [|z l]; [trivial|].
  cbn [dedup_last] in *. destruct (comp_eqb x z) eqn:E.
  - intros [->|H]; [|now apply IH]. apply IH. left. destruct z as [d|h']; [discriminate|]. cbn in E.
    apply str_eqb_eq in E. now subst.
  - intros [->|H]; [now left|right; now apply IH].
Qed.
Lemma dedup_last_derived (l : list component) (d : derived) : In (CDerived d) l -> exists d', In (CDerived d') (dedup_last l).
Proof.
  revert d. induction l as [|x l IH]; intros d H; [destruct H|]. destruct l as [|z l]; [eexists; exact H|].
  cbn [dedup_last] in *. destruct (comp_eqb x z) eqn:E.
  - destruct H as [->|H]; [|now apply (IH d)]. destruct z as [d'|h']; [|discriminate]. apply (IH d'). now left.
  - destruct H as [->|H]; [exists d; now left|]. destruct (IH d H) as [d' Hd']. exists d'. now right.
Qed.
Section Required.
  Context {S Rem : Type} (sr : server_request_like S Rem) (r : S) (env : verify_env).
  Lemma set_required_listed (c c' : verifying_config) (l : list component) (rem : Rem) (kid : str) (q : component) :
    Forall component_rep l -> vc_set_required c l = Done c' -> verify sr r c' env = Done (Ok (rem, kid)) -> In q l ->
    exists input cc, header_value sr r $"signature-input" input /\ input_reads input cc
                     /\ In q (cc_components cc).
  Proof.
    intros Hr Hs Hv Hq. unfold vc_set_required in Hs.
    destruct (sort_components l) as [s|] eqn:E; [|discriminate]. cbn [obind] in Hs. injection Hs as <-.
    rewrite Forall_forall in Hr. destruct q as [d|h].
    - exfalso. apply (sort_components_in l s _ E) in Hq. apply dedup_last_derived in Hq. destruct Hq as [d' Hd'].
      assert (Hrep : component_rep (CDerived d')).
      { apply Hr. apply (sort_components_in l s _ E). now apply dedup_last_sub. }
      revert Hv. eapply required_derived_rejected; [|exact Hrep]. exact Hd'.
    - eapply required_listed; [exact Hv| |now apply Hr]. cbn [vc_required]. apply dedup_last_header.
      now apply (sort_components_in l s _ E).
  Qed.
  Lemma set_required_derived_rejected (c c' : verifying_config) (l : list component) (d : derived) :
    Forall component_rep l -> In (CDerived d) l -> vc_set_required c l = Done c' ->
    forall rem kid, verify sr r c' env <> Done (Ok (rem, kid)).
  Proof.
    intros Hr Hq Hs. unfold vc_set_required in Hs.
    destruct (sort_components l) as [s|] eqn:E; [|discriminate]. cbn [obind] in Hs. injection Hs as <-.
    rewrite Forall_forall in Hr. apply (sort_components_in l s _ E) in Hq. apply dedup_last_derived in Hq. destruct Hq as [d' Hd'].
    assert (Hrep : component_rep (CDerived d')).
    { apply Hr. apply (sort_components_in l s _ E). now apply dedup_last_sub. }
    eapply required_derived_rejected; [|exact Hrep]. exact Hd'.
  Qed.
  (** Conversely, requiring covered headers rejects nothing. *)
  Lemma set_required_headers_ok (c c' : verifying_config) (l : list component) (kid : str) (rem : Rem) : clocks_ok c env ->
    (forall q, In q l -> exists h, q = CHeader h) -> vc_required c = [] -> vc_set_required c l = Done c' ->
    verify sr r c env = Done (Ok (rem, kid)) ->
    (forall q input cc, In q l -> header_value sr r $"signature-input" input -> input_reads input cc -> In q (cc_components cc)) ->
    exists rem', verify sr r c' env = Done (Ok (rem', kid)).
  Proof.
    intros O Hh Hn Hs Hv Hl. unfold vc_set_required in Hs.
    destruct (sort_components l) as [s|] eqn:E; [|discriminate]. cbn [obind] in Hs. injection Hs as <-.
    apply verify_iff; [exact (proj1 O)|exact (proj2 O)|].
    assert (A : accepts sr r c env kid). { apply verify_iff; [exact (proj1 O)|exact (proj2 O)|eauto]. }
    destruct A as (cc & sig & H & T & K & _ & D & G). exists cc, sig. split; [exact H|]. split; [exact T|].
    split; [exact K|]. split; [|split; [exact D|exact G]]. cbn [vc_required]. apply Forall_forall. intros q Hq.
    apply dedup_last_sub in Hq. apply (sort_components_in l s _ E) in Hq. destruct (Hh q Hq) as [h ->].
    destruct H as (i & sv & Hi & Hp & _). specialize (Hl _ _ _ Hq Hi Hp). unfold listed. exists h. split; [reflexivity|].
    exists (component_item (CHeader h)). split; [now apply in_map|reflexivity].
  Qed.
End Required.

(** ** Digest on MockRequest with the default provider (C20, C22) *)
Lemma mock_digest (r : mock) (c : verifying_config) (env : verify_env) (kid dv : str) :
  vc_validate_digest c = true -> vc_digests c = default_digest_provider ->
  verify mr_server r c env = Done (Ok (tt, kid)) -> header_value mr_server r $"digest" dv ->
  exists body alg v, mr_body r = Some body /\ first_entry default_digest_provider dv alg v
    /\ (alg = sha256_digest /\ v = b64_bits (sha256 body) \/ alg = sha512_digest /\ v = b64_bits (sha512 body)).
Proof.
  intros Hv Hd A Hdv. destruct (digest_enforced mr_server r c env tt kid dv Hv Hdv A) as (alg & v & F & M).
  rewrite Hd in F. cbn [sr_complete_with_digest mr_server mr_complete_with_digest] in M.
  unfold mr_complete_with_digest in M. destruct (mr_body r) as [b|] eqn:B; [|discriminate]. cbn [fst] in M. injection M as <-.
  exists b, alg, (dg_digest alg b). split; [reflexivity|]. split; [exact F|].
  destruct F as (bf & e & af & _ & _ & _ & (k & w & nm & _ & _ & _ & P & _)).
  unfold default_digest_provider in P. destruct (str_eqb _ $"SHA-256"); [|destruct (str_eqb _ $"SHA-512"); [|discriminate]];
    injection P as <-; [left|right]; (split; [reflexivity|]); cbn [dg_digest sha256_digest sha512_digest];
    now rewrite b64_bits_encode.
Qed.

Lemma digest_header_first (body : str) :
  first_entry default_digest_provider (digest_header body) sha256_digest (dg_digest sha256_digest body).
Proof.
  unfold digest_header. rewrite b64_bits_encode. apply first_entry_iff.
  assert (N : ~ In ","%char ($"SHA-256=" ++ b64_encode (sha256 body))).
  { intro H. apply in_app_or in H. destruct H as [H|H]; [|now apply b64_no_comma in H].
    revert H. vm_compute. intuition discriminate. }
  rewrite split_nosep by exact N. cbn [first_digest].
  assert (E : split_once "=" ($"SHA-256=" ++ b64_encode (sha256 body)) = Some ($"SHA-256", b64_encode (sha256 body))).
  { apply split_once_spec. split; [reflexivity|]. vm_compute. intuition discriminate. }
  rewrite E. change (default_digest_provider (trim $"SHA-256")) with (Some sha256_digest).
  now rewrite trim_b64.
Qed.
Lemma digest_header_plain (body : str) : plain (digest_header body).
Proof.
  unfold digest_header. rewrite b64_bits_encode. apply Forall_app. split.
  - apply plain_iff. reflexivity.
  - destruct (b64_encode_chars (sha256 body)) as [H _]. apply Forall_forall. intros c Hc. left.
    apply (forallb_In _ _ _ H) in Hc. unfold visible.
    pose proof (byte_all (fun c => implb (is_b64_char c) ((32 <=? code c)%N && (code c <=? 126)%N))) as B.
    specialize (B ltac:(vm_compute; reflexivity) c). cbv beta in B. rewrite Hc in B. cbn [implb] in B.
    fold (code c). lia.
Qed.
Lemma replace_body_derive (r : mock) (body : str) (q : component) : q <> CHeader $"digest" ->
  mr_derive (replace_body r body) q = mr_derive r q.
Proof. intro H. unfold replace_body. rewrite mr_set_other by exact H. destruct q; reflexivity. Qed.
Lemma unsigned_digest (r : mock) (c : verifying_config) (env : verify_env) (kid input body : str) (cc : canon_config) :
  clocks_ok c env -> vc_digests c = default_digest_provider ->
  verify mr_server r c env = Done (Ok (tt, kid)) ->
  header_value mr_server r $"signature-input" input -> input_reads input cc ->
  ~ In (CHeader $"digest") (cc_components cc) ->
  verify mr_server (replace_body r body) c env = Done (Ok (tt, kid)).
Proof.
  intros O Hd A Hi Hp Hn.
  assert (G : exists rem, verify mr_server (replace_body r body) c env = Done (Ok (rem, kid))).
  2:{ destruct G as [[] G]. exact G. }
  apply verify_iff; [exact (proj1 O)|exact (proj2 O)|].
  assert (A' : accepts mr_server r c env kid). { apply verify_iff; [exact (proj1 O)|exact (proj2 O)|eauto]. }
  destruct A' as (cc' & sig & H & T & K & R & D & _).
  pose proof (signature_headers_parse mr_server r _ _ _ _ H Hi) as Hp'. pose proof (input_reads_unique _ _ _ Hp Hp') as <-.
  exists cc, sig. split; [|split; [exact T|split; [|split; [exact R|split; [exact D|]]]]].
  - destruct H as (i & s & H1 & H2 & H3 & H4). exists i, s. unfold header_value in *. cbn [mr_server sr_rl mr_rl rl_derive] in *.
    rewrite !replace_body_derive by discriminate. auto.
  - destruct K as (base & k & B & I & V). exists base, k. split; [|auto].
    cbn [mr_server sr_rl mr_rl rl_derive] in *. destruct B as (ids & vals & sp & B1 & B2 & B3 & ->).
    exists ids, vals, sp. split; [exact B1|]. split; [|split; [exact B3|reflexivity]].
    clear - B2 Hn. induction B2 as [|q v cs vs Hq _ IH]; constructor.
    + rewrite replace_body_derive; [exact Hq|]. intros ->. apply Hn. now left.
    + apply IH. intro F. apply Hn. now right.
  - left. exists (digest_header body). split.
    + unfold header_value. cbn [mr_server sr_rl mr_rl rl_derive]. apply mr_set, digest_header_plain.
    + intros _. exists sha256_digest, (dg_digest sha256_digest body). rewrite Hd. split; [apply digest_header_first|reflexivity].
Qed.

(** ** Several signatures (C30) *)
Lemma hmac_rejects_commas (key : str) : rejects_commas (hmac_sha256_verifier key) /\ rejects_commas (hmac_sha512_verifier key).
Proof.
  split; intros msg sig H; apply not_true_is_false; intro V; apply hmac_verify_iff in V; subst sig;
    unfold hmac_http_sign in H; now apply b64_no_comma in H.
Qed.
Lemma raw_rejects_commas (n : str) (v : str -> str -> bool) : rejects_commas (HttpVerifier n (raw_http_verify v)).
Proof.
  intros msg sig H. apply not_true_is_false. intro V. apply raw_verify_iff in V. destruct V as (tag & -> & _).
  now apply b64_no_comma in H.
Qed.
Lemma ring_rejects_commas (cy : crypto) (t : key_type) (key : str) : rejects_commas (ring_verifier cy t key).
Proof. apply raw_rejects_commas. Qed.
Lemma openssl_rejects_commas (cy : crypto) (t : key_type) (key : str) (k : http_verifier) :
  openssl_verifier cy t key = Some k -> rejects_commas k.
Proof. unfold openssl_verifier. destruct t; intro H; try discriminate; injection H as <-; apply raw_rejects_commas. Qed.

Lemma first_member_label (s : str) (cc : canon_config) : input_reads s cc -> ~ In ","%char (cc_get_label cc).
Proof.
  intro H. destruct H as (items & M & _). apply first_member_iff in M. destruct M as (others & D).
  pose proof (parse_dictionary_good _ _ D (cc_get_label cc, LEInner (InnerList items (cc_params cc))) (or_introl eq_refl)) as [[_ K] _].
  cbn [fst] in K. unfold ser_key in K. intro F. apply K.
  assert (E : forallb is_key_char (cc_get_label cc) = false).
  { apply not_true_is_false. intro T. apply (forallb_In _ _ _ T) in F. discriminate F. }
  now rewrite E.
Qed.
Section Several.
  Context {S Rem : Type} (sr : server_request_like S Rem) (r : S) (c : verifying_config) (env : verify_env).
  Lemma several_signatures_rejected (sigv : str) :
    header_value sr r $"signature" sigv -> In ","%char sigv -> (forall id k, In k (vc_keys c id) -> rejects_commas k) ->
    forall rem kid, verify sr r c env <> Done (Ok (rem, kid)).
  Proof.
    intros Hs Hc Hk rem kid A. apply accepted_signature in A. destruct A as (cc & sig & H & (base & k & _ & Ik & V)).
    destruct H as (i & s & _ & Hp & Hs' & M & _). unfold header_value in *. rewrite Hs in Hs'. injection Hs' as <-.
    destruct M as (_ & (m & n & ->) & _).
    assert (Hsig : In ","%char sig).
    { rewrite !in_app_iff in Hc. destruct Hc as [F|[F|[F|[F|F]]]]; [|destruct F as [F|[]]; discriminate F| |exact F|].
      - now apply (first_member_label _ _ Hp) in F.
      - apply repeat_spec in F. discriminate F.
      - apply repeat_spec in F. discriminate F. }
    rewrite (Hk kid k Ik base sig Hsig) in V. discriminate V.
  Qed.
End Several.

(** ** Parameters of header fields (C46) *)
Lemma field_params_dropped (s1 s2 label : str) (i1 i2 : list item) (p : list (str * bare)) :
  first_member s1 label i1 p -> first_member s2 label i2 p -> Forall2 same_but_field_params i1 i2 ->
  cc_parse s1 = cc_parse s2.
Proof.
  rewrite !first_member_iff. intros [o1 D1] [o2 D2] H. unfold cc_parse, si_parse. rewrite D1, D2. unfold cc_from_signature_input.
  cbn [si_list il_items il_params si_label].
  assert (E : omap comp_from_item i1 = omap comp_from_item i2).
  { clear - H. induction H as [|i j l1 l2 Hij _ IH]; [reflexivity|]. cbn [omap]. rewrite IH.
    assert (E : comp_from_item i = comp_from_item j); [|now rewrite E].
    destruct Hij as [->|[B (n & Hn & Ha)]]; [reflexivity|]. unfold comp_from_item. rewrite <- B, Hn. cbn [as_str unwrap obind].
    assert (F : starts_with $"@" n = false).
    { apply not_true_is_false. intro F. apply starts_with_spec in F. destruct F as [x ->]. now apply (Ha x). }
    now rewrite F. }
  now rewrite E.
Qed.

(** ** Later members of Signature-Input (C45) *)
(** The members of a dictionary text in order, with repetitions. *)
Fixpoint dict_members (fuel : nat) (s : str) : option (list (str * list_entry) * str) :=
  match fuel with
  | O => None
  | Datatypes.S f =>
      match s with
      | [] => Some ([], [])
      | _ :: _ =>
          match parse_key s with
          | None => None
          | Some (k, s1) =>
              match (match s1 with
                | e :: s2 =>
                    if Ascii.eqb e "=" then parse_list_entry s2
                    else match parse_params s1 with
                         | Some (p, r) => Some (LEItem (Item (BBoolean true) p), r)
                         | None => None
                         end
                | [] => Some (LEItem (Item (BBoolean true) []), [])
                end) with
              | None => None
              | Some (m, s3) =>
                  match skip_ows s3 with
                  | [] => Some ([(k, m)], [])
                  | c :: s4 =>
                      if Ascii.eqb c "," then
                        match skip_ows s4 with
                        | [] => None
                        | (_ :: _) as s5 => match dict_members f s5 with Some (ms, r) => Some ((k, m) :: ms, r) | None => None end
                        end
                      else None
                  end
              end
          end
      end
  end.
Definition insert_all (ms : list (str * list_entry)) (acc : dictionary) : dictionary :=
  fold_left (fun d km => imap_insert d (fst km) (snd km)) ms acc.
Lemma dict_loop_members (f : nat) (s : str) (acc : dictionary) :
  parse_dict_loop f s acc = match dict_members f s with Some (ms, r) => Some (insert_all ms acc, r) | None => None end.
Proof.
  revert s acc. induction f as [|f IH]; intros s acc; [reflexivity|]. cbn [parse_dict_loop dict_members].
  destruct s as [|y s]; [reflexivity|]. destruct (parse_key (y :: s)) as [[k s1]|]; [|reflexivity]. cbv zeta.
  set (m := match s1 with
            | e :: s2 => if Ascii.eqb e "=" then parse_list_entry s2
                         else match parse_params s1 with
                              | Some (p, r) => Some (LEItem (Item (BBoolean true) p), r)
                              | None => None end
            | [] => Some (LEItem (Item (BBoolean true) []), []) end).
  destruct m as [[m' s3]|]; [|reflexivity].
  destruct (skip_ows s3) as [|z s4]; [reflexivity|]. destruct (Ascii.eqb z ","); [|reflexivity].
  destruct (skip_ows s4) as [|w s5]; [reflexivity|]. rewrite IH. destruct (dict_members f (w :: s5)) as [[ms r]|]; reflexivity.
Qed.
Lemma insert_all_get (ms : list (str * list_entry)) (acc acc' : dictionary) (k : str) :
  imap_get acc' k = None ->
  imap_get (insert_all ms acc) k = match imap_get (insert_all ms acc') k with Some e => Some e | None => imap_get acc k end.
Proof.
  revert acc acc'. induction ms as [|[k1 e1] ms IH]; intros acc acc' H; cbn [insert_all fold_left fst snd].
  - now rewrite H.
  - fold (insert_all ms (imap_insert acc k1 e1)). fold (insert_all ms (imap_insert acc' k1 e1)).
    destruct (str_eqb k1 k) eqn:E.
    + apply str_eqb_eq in E. subst k1.
      assert (G : forall ms a b, (exists e, imap_get a k = Some e /\ imap_get b k = Some e) ->
                 exists e, imap_get (insert_all ms a) k = Some e /\ imap_get (insert_all ms b) k = Some e).
      { clear. induction ms as [|[k2 e2] ms IH]; intros a b He; [exact He|]. cbn [insert_all fold_left fst snd]. apply IH.
        rewrite !imap_get_insert. destruct (str_eqb k2 k); [eauto|exact He]. }
      destruct (G ms (imap_insert acc k e1) (imap_insert acc' k e1)) as (e & G1 & G2).
      { exists e1. now rewrite !imap_get_insert, str_eqb_refl. }
      now rewrite G1, G2.
    + rewrite (IH (imap_insert acc k1 e1) (imap_insert acc' k1 e1)) by now rewrite imap_get_insert, E.
      now rewrite imap_get_insert, E.
Qed.
Lemma insert_all_head (ms : list (str * list_entry)) (l : str) (e : list_entry) (acc : dictionary) :
  exists e' acc', insert_all ms ((l, e) :: acc) = (l, e') :: acc'.
Proof.
  revert e acc. induction ms as [|[k1 e1] ms IH]; intros e acc; [do 2 eexists; reflexivity|].
  cbn [insert_all fold_left fst snd imap_insert]. destruct (str_eqb l k1); apply IH.
Qed.
Lemma skip_sp_key (s : str) : skip_ows s = skip_sp s \/ (forall k r, parse_key (skip_sp s) <> Some (k, r)).
Proof.
  unfold skip_ows, skip_sp. induction s as [|c s IH]; [now left|]. cbn [drop_while]. unfold is_ows at 1. destruct (is_sp c) eqn:E; [exact IH|].
  cbn [orb]. destruct (code c =? 9)%N eqn:F; [|now left]. right. intros k r. unfold parse_key.
  assert (G : is_key_start c = false); [|now rewrite G].
  pose proof (byte_all (fun c => implb (code c =? 9)%N (negb (is_key_start c))) ltac:(vm_compute; reflexivity) c) as B.
  cbv beta in B. rewrite F in B. now apply negb_true_iff.
Qed.
(** A printed member followed by more members. *)
Lemma dictionary_append (k : str) (l : inner_list) (t u : str) (d : dictionary) :
  ser_dict1 k l = Some t -> key_good k -> inner_ne l -> parse_dictionary u = Some d -> d <> [] ->
  exists others, parse_dictionary (t ++ ","%char :: u)
    = Some ((k, match imap_get d k with Some e => e | None => LEInner (canon_inner l) end) :: others).
Proof.
  intros H [Hk _] Hl Hu Hd. unfold ser_dict1 in H. destruct (ser_key k) as [kt|] eqn:Ek; [|discriminate].
  destruct (ser_inner_list l) as [lt|] eqn:El; [|discriminate]. injection H as <-.
  unfold parse_dictionary in *.
  assert (At : is_ascii (kt ++ "="%char :: lt) = true).
  { apply printable_ascii. rewrite printable_app, printable_cons, (printable_ser_key _ _ Ek), (printable_ser_inner _ _ El). reflexivity. }
  rewrite is_ascii_app, is_ascii_cons, At. change (is_ascii_byte ",") with true. cbn [andb].
  destruct (is_ascii u); [|discriminate].
  pose proof (ser_key_some _ _ Ek) as (Ekt & K1 & K2).
  assert (Hsp : forall r, skip_sp (kt ++ r) = kt ++ r).
  { intro r. apply drop_while_id. subst kt. destruct k as [|c k]; [easy|]. now apply key_start_char. }
  assert (E : (kt ++ "="%char :: lt) ++ ","%char :: u = kt ++ "="%char :: lt ++ ","%char :: u)
    by (rewrite <- app_assoc; reflexivity).
  rewrite E, Hsp.
  assert (St : forall f, parse_dict_loop (Datatypes.S f) (kt ++ "="%char :: lt ++ ","%char :: u) []
    = match skip_ows u with [] => None | (_ :: _) as s5 => parse_dict_loop f s5 [(k, LEInner (canon_inner l))] end).
  { intro f. cbn [parse_dict_loop].
    destruct (kt ++ "="%char :: lt ++ ","%char :: u) as [|x y] eqn:E2; [destruct kt; discriminate|]. rewrite <- E2.
    rewrite (parse_ser_key k kt _ Ek Hk) by reflexivity.
    change (Ascii.eqb "=" "=") with true. cbv iota zeta.
    rewrite (parse_ser_inner l lt (","%char :: u) El Hl) by reflexivity. reflexivity. }
  rewrite St.
  destruct (parse_dict_loop (Datatypes.S (List.length u)) (skip_sp u) []) as [[d0 r]|] eqn:P; [|discriminate].
  destruct (skip_sp r) eqn:Er; [|discriminate]. injection Hu as ->.
  assert (Eo : skip_ows u = skip_sp u /\ skip_sp u <> []).
  { destruct (skip_sp u) as [|y s] eqn:Eu.
    - cbn [parse_dict_loop] in P. injection P as <- _. congruence.
    - split; [|discriminate]. destruct (skip_sp_key u) as [Eo|No]; [congruence|]. exfalso. rewrite Eu in No.
      cbn [parse_dict_loop] in P. destruct (parse_key (y :: s)) as [[k' r']|]; [|discriminate]. now apply (No k' r'). }
  destruct Eo as [-> Eu].
  assert (F1 : forall acc, 
      parse_dict_loop (List.length (kt ++ "="%char :: lt ++ ","%char :: u)) (skip_sp u) acc
      = parse_dict_loop (Datatypes.S (List.length u)) (skip_sp u) acc).
  { intros acc. pose proof (drop_while_len is_sp u) as D. fold (skip_sp u) in D.
    apply parse_dict_fuel; [|lia]. rewrite app_length. cbn [List.length]. rewrite app_length. cbn [List.length]. lia. }
  specialize (F1 [(k, LEInner (canon_inner l))]). destruct (skip_sp u) as [|y s]; [congruence|].
  rewrite F1. rewrite dict_loop_members in P |- *.
  destruct (dict_members (Datatypes.S (List.length u)) (y :: s)) as [[ms r2]|]; [|discriminate]. injection P as <- ->.
  rewrite Er.
  destruct (insert_all_head ms k (LEInner (canon_inner l)) []) as (e' & others & Eh). rewrite Eh.
  exists others. do 3 f_equal.
  pose proof (insert_all_get ms [(k, LEInner (canon_inner l))] [] k eq_refl) as G. rewrite Eh in G.
  cbn [imap_get] in G. rewrite str_eqb_refl in G. destruct (imap_get (insert_all ms []) k); now injection G as <-.
Qed.
Lemma later_members (cfg : canon_config) (t u : str) (d : dictionary) : config_rep cfg ->
  si_to_string (cc_to_signature_input cfg) = Done t -> dictionary_reads u d -> d <> [] ->
  (value_of (cc_get_label cfg) d = None -> cc_parse (t ++ ","%char :: u) = cc_parse t)
  /\ (forall items p, first_member u (cc_get_label cfg) items p -> cc_parse (t ++ ","%char :: u) = cc_parse u).
Proof.
  intros (Hl & Hc & Hp) Ht Hu Hd. apply parse_dictionary_iff in Hu. apply key_rep_good in Hl.
  destruct (si_print_parse (cc_get_label cfg) _ Hl (components_rep_good _ _ Hc Hp)) as (t' & E & _ & P).
  unfold cc_to_signature_input, si_new in Ht. unfold cl_new in *. rewrite Ht in E. injection E as <-.
  unfold si_to_string in Ht. cbn [si_label si_list] in Ht.
  destruct (ser_dict1 _ _) as [t'|] eqn:Es in Ht; [|discriminate]. injection Ht as ->.
  destruct (dictionary_append _ _ _ u d Es Hl (inner_good_ne _ (components_rep_good _ _ Hc Hp)) Hu Hd) as [others D].
  split.
  - intro V. rewrite value_of_get in V. rewrite V in D. unfold cc_parse. rewrite P. unfold si_parse. rewrite D. reflexivity.
  - intros items p F. apply first_member_iff in F. destruct F as [o F]. rewrite Hu in F. injection F as ->. cbn [imap_get] in D. rewrite str_eqb_refl in D.
    unfold cc_parse, si_parse. rewrite D, Hu. reflexivity.
Qed.
