(** Signing followed by verification. *)
From Verif Require Export SignFacts.

(** ** The configuration read back from a printed one *)
Definition canon_component (c : component) : component :=
  match c with CHeader h => CHeader h | CDerived d => CDerived (Derived (canon_item (dc_item d))) end.
Lemma read_canon_component (c : component) : component_rep c ->
  comp_from_item (canon_item (comp_to_item c)) = Done (canon_component c).
Proof.
  destruct c as [d|h]; cbn [component_rep comp_to_item canon_component].
  - intros (n & E & _). unfold comp_from_item. unfold canon_item at 1. cbn [it_bare]. rewrite E. reflexivity.
  - intro H. apply header_name_ok in H. unfold comp_from_item. cbn [canon_item it_bare canon_bare as_str unwrap obind].
    rewrite (hname_no_at h H), (hname_parse_ok h H). reflexivity.
Qed.
Lemma read_canon_components (cs : list component) : Forall component_rep cs ->
  omap comp_from_item (map canon_item (map comp_to_item cs)) = Done (map canon_component cs).
Proof.
  induction 1 as [|c cs Hc _ IH]; [reflexivity|]. cbn [map omap]. rewrite read_canon_component by exact Hc.
  cbn [obind]. rewrite IH. reflexivity.
Qed.
Lemma print_parse_exact (cfg : canon_config) (t : str) : config_rep cfg ->
  si_to_string (cc_to_signature_input cfg) = Done t ->
  cc_parse t = Done (Ok (CanonConfig (Some (cc_get_label cfg)) (map canon_component (cc_components cfg)) (canon_params (cc_params cfg)))).
Proof.
  intros (Hl & Hc & Hp) Ht. apply key_rep_good in Hl.
  destruct (si_print_parse (cc_get_label cfg) _ Hl (components_rep_good _ _ Hc Hp)) as (t' & E & _ & P).
  unfold cc_to_signature_input, si_new in Ht. unfold cl_new in *. rewrite Ht in E. injection E as <-.
  unfold cc_parse. rewrite P. unfold cc_from_signature_input.
  cbn [si_list canon_inner cl_new il_items il_params si_label]. now rewrite read_canon_components.
Qed.
Lemma canon_identifier (c : component) (t : str) : identifier_text c t -> identifier_text (canon_component c) t.
Proof.
  destruct c as [d|h]; [|trivial]. cbn [canon_component identifier_text dc_item]. intro H. apply item_text_iff.
  rewrite ser_canon_item. now apply item_text_iff.
Qed.
Lemma canon_items_text (cs : list component) (p : params) (sp : str) :
  inner_text (map component_item cs) p sp -> inner_text (map component_item (map canon_component cs)) (canon_params p) sp.
Proof.
  intro H. apply inner_text_iff. apply inner_text_iff in H. rewrite <- H. rewrite <- (ser_canon_inner (InnerList (map component_item cs) p)).
  unfold canon_inner. cbn [il_items il_params]. f_equal. f_equal. rewrite !map_map. apply map_ext.
  intros [d|h]; reflexivity.
Qed.
Lemma canon_component_same (c : component) : component_rep c -> same_component (canon_component c) c.
Proof.
  destruct c as [d|h]; [|reflexivity]. intro H. apply component_rep_same in H. exact H.
Qed.
Lemma canon_base (f g : component -> outcome (option str)) (cs : list component) (p : params) (base : str) :
  (forall q, In q cs -> g (canon_component q) = f q) ->
  signature_base f cs p base -> signature_base g (map canon_component cs) (canon_params p) base.
Proof.
  intros H (ids & vals & sp & H1 & H2 & H3 & ->). exists ids, vals, sp. split; [|split; [|split; [|reflexivity]]].
  - clear - H1. induction H1; constructor; [now apply canon_identifier|assumption].
  - clear - H H2. induction H2 as [|q v cs vals Hq _ IH]; constructor.
    + rewrite H by now left. exact Hq.
    + apply IH. intros x Hx. apply H. now right.
  - now apply canon_items_text.
Qed.

(** ** The parameters of a signature *)
Lemma stamp_rep (c : signing_config) (now : Z) (t : str) : sc_nonce c <> Some [] ->
  params_text (stamp c now) t -> params_rep (stamp c now).
Proof.
  intros Hn Ht. apply params_text_iff in Ht. apply params_good_rep.
  2:{ intros kv Hin. unfold stamp, opt_param in Hin.
      destruct (created_at c now), (expires_at c now), (sc_nonce c); cbn in Hin;
        repeat (destruct Hin as [<-|Hin]; [exact I|]); destruct Hin. }
  assert (G : forall kv, In kv (stamp c now) -> key_good (fst kv) /\ snd kv <> BToken []).
  { intros kv Hin. unfold stamp, opt_param in Hin.
    destruct (created_at c now), (expires_at c now), (sc_nonce c); cbn in Hin;
      repeat (destruct Hin as [<-|Hin]; [split; [split; vm_compute; discriminate|cbn [snd]; let E := fresh in intro E; first [discriminate E|injection E as E; apply Hn; now rewrite E]]|]); destruct Hin. }
  apply (params_ne_good (stamp c now) t); [|exact Ht].
  split.
  - unfold stamp, opt_param, keys. destruct (created_at c now), (expires_at c now), (sc_nonce c); cbn [map fst app];
      apply NoDup_nodup_str; reflexivity.
  - intros kv Hin. destruct (G kv Hin) as [[K _] B]. split; assumption.
Qed.
