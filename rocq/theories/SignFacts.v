(** Lemmas about Signing.v. *)
From Verif Require Export SpecSign CanonFacts AlgFacts VerifyFacts ReqFacts.

Lemma header_dec (q : component) (h : str) : {q = CHeader h} + {q <> CHeader h}.
Proof. destruct q as [d|k]; [right; discriminate|]. destruct (str_eq_dec k h) as [->|N]; [now left|right; congruence]. Defined.

(** ** Times and parameters *)
Lemma created_get_at (c : signing_config) (now : Z) : created_get (sc_created c) now = created_at c now.
Proof. unfold created_at. destruct (sc_created c); reflexivity. Qed.
Lemma saturating_clamp (a b : Z) : saturating_add a b = clamp (a + b).
Proof.
  unfold saturating_add, clamp, i64_min, i64_max.
  destruct (Z.ltb_spec (2 ^ 63 - 1) (a + b)); [lia|]. destruct (Z.ltb_spec (a + b) (- 2 ^ 63)); lia.
Qed.
Lemma expires_get_at (c : signing_config) (now : Z) : expires_get (sc_expires c) now = expires_at c now.
Proof. unfold expires_at. destruct (sc_expires c); cbn; [reflexivity|now rewrite saturating_clamp|reflexivity]. Qed.
Lemma created_late_iff (c : signing_config) (now : Z) :
  created_late c now <-> match created_at c now with Some t => (now <? t)%Z | None => false end = true.
Proof.
  unfold created_late. destruct (created_at c now) as [t|]; split; try discriminate.
  - intros (t' & E & L). injection E as <-. lia. - intro L. exists t. split; [reflexivity|lia].
  - intros (t' & E & _). discriminate.
Qed.
Lemma expires_early_iff (c : signing_config) (now : Z) :
  expires_early c now <-> match expires_at c now with Some t => (t <? now)%Z | None => false end = true.
Proof.
  unfold expires_early. destruct (expires_at c now) as [t|]; split; try discriminate.
  - intros (t' & E & L). injection E as <-. lia. - intro L. exists t. split; [reflexivity|lia].
  - intros (t' & E & _). discriminate.
Qed.

Lemma sign_canon_eq (c : signing_config) (cs : list component) (now : Z) :
  sign_canon c cs now =
    if match created_at c now with Some t => (now <? t)%Z | None => false end then Err EInvalidSignatureCreationDate
    else if match expires_at c now with Some t => (t <? now)%Z | None => false end then Err EInvalidSignatureExpiresDate
    else Ok (CanonConfig None cs (stamp c now)).
Proof.
  unfold sign_canon. rewrite created_get_at, expires_get_at. unfold stamp.
  destruct (created_at c now) as [t|]; [destruct (now <? t)%Z; [reflexivity|]|];
    (destruct (expires_at c now) as [u|]; [destruct (u <? now)%Z; [reflexivity|]|]);
    destruct (sc_nonce c); reflexivity.
Qed.

(** ** Printing *)
Lemma label_text (l : inner_list) (t : str) :
  ser_dict1 $"sig" l = Some t <-> exists sp, inner_text (il_items l) (il_params l) sp /\ t = $"sig=" ++ sp.
Proof.
  unfold ser_dict1. change (ser_key $"sig") with (Some $"sig").
  destruct (ser_inner_list l) as [sp|] eqn:E.
  - destruct l as [items p]. split.
    + intro H. injection H as <-. exists sp. split; [now apply inner_text_iff|reflexivity].
    + intros (sp' & H & ->). apply inner_text_iff in H. cbn [il_items il_params] in H. rewrite E in H. injection H as <-. reflexivity.
  - split; [discriminate|]. intros (sp & H & _). destruct l as [items p]. apply inner_text_iff in H. cbn [il_items il_params] in H. congruence.
Qed.

Section Client.
  Context {R : Type} (cr : client_request_like R) (L : client_laws cr).
  Notation derive := (rl_derive (cr_rl cr)).
  Notation has := (rl_has_component (cr_rl cr)).

  Lemma has_iff (r : R) (q : component) (b : bool) :
    has r q = Done b <-> match b with true => exists v, derive r q = Done (Some v) | false => derive r q = Done None end.
  Proof.
    rewrite (cl_has _ L). destruct (derive r q) as [[v|]|], b; split; try discriminate; try reflexivity; eauto.
    all: intros (v' & H); discriminate.
  Qed.
  Lemma has_panic (r : R) (q : component) : has r q = Panic <-> derive r q = Panic.
  Proof. rewrite (cl_has _ L). destruct (derive r q) as [[v|]|]; split; try discriminate; reflexivity. Qed.

  (** *** Frame: what holds of the request is kept *)
  Lemma add_date_frame (I : R -> Prop) (r r1 : R) (c : signing_config) (env : sign_env) :
    I r -> (sc_add_date c = true -> derive r (CHeader $"date") = Done None -> forall v, I (cr_set_header cr r h_date v)) ->
    add_date cr r c env = Done r1 -> I r1.
  Proof.
    intros H0 H1. unfold add_date. destruct (sc_add_date c); [|intro H; now injection H as <-].
    destruct (has r (CHeader h_date)) as [[|]|] eqn:E; cbn [obind]; try discriminate; [intro H; now injection H as <-|].
    destruct (utc_now (se_utc env)) as [now|]; cbn [obind]; [|discriminate].
    destruct (unwrap (hvalue_parse _)) as [v|]; cbn [obind]; [|discriminate].
    intro H. injection H as <-. apply H1; [reflexivity|]. now apply has_iff in E.
  Qed.
  Lemma add_host_frame (I : R -> Prop) (r r1 : R) (c : signing_config) :
    I r -> (sc_add_host c = true -> derive r (CHeader $"host") = Done None -> forall v, I (cr_set_header cr r h_host v)) ->
    add_host cr r c = Done r1 -> I r1.
  Proof.
    intros H0 H1. unfold add_host. destruct (sc_add_host c); [|intro H; now injection H as <-].
    destruct (has r (CHeader h_host)) as [[|]|] eqn:E; cbn [obind]; try discriminate; [intro H; now injection H as <-|].
    destruct (cr_host cr r) as [h|]; [|intro H; now injection H as <-].
    destruct (unwrap (hvalue_parse _)) as [v|]; cbn [obind]; [|discriminate].
    intro H. injection H as <-. apply H1; [reflexivity|]. now apply has_iff in E.
  Qed.
  Lemma add_digest_frame (I : R -> Prop) (r r1 : R) (c : signing_config) :
    I r ->
    (sc_compute_digest c = true -> derive r (CHeader $"digest") = Done None ->
       I (fst (cr_compute_digest cr r (sc_digest c)))
       /\ forall v, I (cr_set_header cr (fst (cr_compute_digest cr r (sc_digest c))) h_digest v)) ->
    add_digest cr r c = Done r1 -> I r1.
  Proof.
    intros H0 H1. unfold add_digest. destruct (sc_compute_digest c); [|intro H; now injection H as <-].
    destruct (has r (CHeader h_digest)) as [[|]|] eqn:E; cbn [obind]; try discriminate; [intro H; now injection H as <-|].
    apply has_iff in E. specialize (H1 eq_refl E).
    destruct (cr_compute_digest cr r (sc_digest c)) as [r2 [d|]]; cbn [fst] in H1; [|intro H; now injection H as <-].
    destruct (unwrap (hvalue_parse _)) as [v|]; cbn [obind]; [|discriminate].
    intro H. injection H as <-. apply H1.
  Qed.

  Lemma auto_frame (I : R -> Prop) (r r1 : R) (cs : list component) (c : signing_config) (env : sign_env) :
    I r ->
    (sc_add_date c = true -> derive r (CHeader $"date") = Done None -> forall x v, I x -> I (cr_set_header cr x h_date v)) ->
    (sc_add_host c = true -> derive r (CHeader $"host") = Done None -> forall x v, I x -> I (cr_set_header cr x h_host v)) ->
    (sc_compute_digest c = true -> derive r (CHeader $"digest") = Done None -> forall x v, I x -> I (cr_set_header cr x h_digest v)) ->
    (sc_compute_digest c = true -> forall x d, I x -> I (fst (cr_compute_digest cr x d))) ->
    add_auto_headers cr r c env = Done (r1, cs) -> I r1.
  Proof.
    intros H0 Hd Hh Hg Hc. unfold add_auto_headers.
    destruct (add_date cr r c env) as [ra|] eqn:Ea; cbn [obind]; [|discriminate].
    destruct (add_host cr ra c) as [rb|] eqn:Eb; cbn [obind]; [|discriminate].
    destruct (add_digest cr rb c) as [rc|] eqn:Ec; cbn [obind]; [|discriminate].
    destruct (if sc_skip_missing c then _ else _) as [cs'|]; cbn [obind]; [|discriminate].
    intro H. injection H as <- <-.
    set (J := fun x => I x /\ (forall q, q <> CHeader h_date -> q <> CHeader h_host -> derive x q = derive r q)).
    assert (Ja : I ra /\ forall q, q <> CHeader h_date -> derive ra q = derive r q).
    { apply (add_date_frame (fun x => I x /\ forall q, q <> CHeader h_date -> derive x q = derive r q) r ra c env).
      - split; [exact H0|reflexivity].
      - intros A B v. split; [now apply Hd|]. intros q N. now apply (cl_set_other _ L).
      - exact Ea. }
    assert (Jb : J rb).
    { apply (add_host_frame J ra rb c).
      - split; [apply Ja|]. intros q N _. now apply Ja.
      - intros A B v. split; [apply Hh; [exact A| |apply Ja]|].
        + rewrite <- B. symmetry. apply Ja. discriminate.
        + intros q N N'. rewrite (cl_set_other _ L) by exact N'. now apply Ja.
      - exact Eb. }
    apply (add_digest_frame I rb rc c); [apply Jb| |exact Ec].
    intros A B. split; [now apply Hc, Jb|]. intro v. apply Hg; [exact A| |now apply Hc, Jb].
    rewrite <- B. symmetry. apply Jb; discriminate.
  Qed.
  Lemma auto_headers_changed (r r1 : R) (cs : list component) (c : signing_config) (env : sign_env) :
    add_auto_headers cr r c env = Done (r1, cs) -> auto_changed (cr_rl cr) c r r1.
  Proof.
    intro H. revert H. apply auto_frame.
    - intro q. now left.
    - intros A B x v Hx q. destruct (header_dec q h_date) as [->|N].
      + right. split; [exact B|]. left. split; [reflexivity|exact A].
      + rewrite (cl_set_other _ L) by exact N. apply Hx.
    - intros A B x v Hx q. destruct (header_dec q h_host) as [->|N].
      + right. split; [exact B|]. right. left. split; [reflexivity|exact A].
      + rewrite (cl_set_other _ L) by exact N. apply Hx.
    - intros A B x v Hx q. destruct (header_dec q h_digest) as [->|N].
      + right. split; [exact B|]. right. right. split; [reflexivity|exact A].
      + rewrite (cl_set_other _ L) by exact N. apply Hx.
    - intros A x d Hx q. rewrite (cl_digest _ L). apply Hx.
  Qed.

  (** *** Covered components *)
  Lemma ofilter_keeps (r : R) (l cs : list component) :
    ofilter (has r) l = Done cs -> keeps (has_value (derive r)) l cs.
  Proof.
    revert cs. induction l as [|q l IH]; intros cs; cbn [ofilter].
    - intro H. injection H as <-. constructor.
    - destruct (has r q) as [b|] eqn:E; cbn [obind]; [|discriminate].
      destruct (ofilter (has r) l) as [cs'|]; cbn [obind]; [|discriminate]. intro H. injection H as <-.
      apply has_iff in E. specialize (IH cs' eq_refl). destruct b.
      + now constructor.
      + constructor; [|exact IH]. intros (v & Hv). congruence.
  Qed.
  Lemma ofilter_panic (r : R) (l : list component) :
    ofilter (has r) l = Panic <-> exists q, In q l /\ derive r q = Panic.
  Proof.
    induction l as [|q l IH]; cbn [ofilter].
    - split; [discriminate|]. intros (q & [] & _).
    - pose proof (has_panic r q) as P. destruct (has r q) as [b|]; cbn [obind].
      + destruct (ofilter (has r) l) as [cs'|]; cbn [obind].
        * split; [discriminate|]. intros (q' & [<-|Hq] & D); [now apply P in D|].
          assert (@Done (list component) cs' = Panic) by (apply IH; eauto). discriminate.
        * split; [|reflexivity]. intros _. destruct (proj1 IH eq_refl) as (q' & Hq & D). exists q'. split; [now right|exact D].
      + split; [|reflexivity]. intros _. exists q. split; [now left|now apply P].
  Qed.
  Lemma auto_covered (r r1 : R) (cs : list component) (c : signing_config) (env : sign_env) :
    add_auto_headers cr r c env = Done (r1, cs) -> covered (derive r1) c cs.
  Proof.
    unfold add_auto_headers, covered.
    destruct (add_date cr r c env) as [ra|]; cbn [obind]; [|discriminate].
    destruct (add_host cr ra c) as [rb|]; cbn [obind]; [|discriminate].
    destruct (add_digest cr rb c) as [rc|]; cbn [obind]; [|discriminate].
    destruct (sc_skip_missing c).
    - destruct (ofilter _ _) as [cs'|] eqn:E; cbn [obind]; [|discriminate]. intro H. injection H as <- <-. now apply ofilter_keeps.
    - cbn [obind]. intro H. now injection H as <- <-.
  Qed.

  (** *** [sign] *)
  (** The text of Signature-Input is always a legal and readable header value. *)
  Lemma input_text_plain (items : list item) (p : params) (sp : str) : inner_text items p sp -> plain ($"sig=" ++ sp).
  Proof.
    intro H. apply inner_text_printable in H. apply plain_iff. unfold hvalue_visible. rewrite forallb_app.
    apply andb_true_iff. split; [reflexivity|]. eapply forallb_impl; [|exact H]. intros x Hx. apply orb_true_iff. left. exact Hx.
  Qed.
  Lemma plain_legal (v : str) : plain v -> legal_value v.
  Proof.
    intro H. eapply Forall_impl; [|exact H]. intros a [V| ->]; [left|now right]. unfold visible in V. lia.
  Qed.
  Lemma legal_parse (v : str) : legal_value v -> hvalue_parse v = Some v.
  Proof. intro H. apply legal_iff in H. unfold hvalue_parse. now rewrite H. Qed.

  (** All ways [sign] can end without a panic. *)
  Inductive sign_result (r1 : R) (cs : list component) (c : signing_config) (env : sign_env) : R -> result unit error -> Prop :=
  | sr_created : created_late c (seconds (se_sys env)) ->
      sign_result r1 cs c env r1 (Err EInvalidSignatureCreationDate)
  | sr_expires : ~ created_late c (seconds (se_sys env)) -> expires_early c (seconds (se_sys env)) ->
      sign_result r1 cs c env r1 (Err EInvalidSignatureExpiresDate)
  | sr_missing q : ~ created_late c (seconds (se_sys env)) -> ~ expires_early c (seconds (se_sys env)) ->
      In q cs -> derive r1 q = Done None -> (forall q, In q cs -> derive r1 q <> Panic) ->
      sign_result r1 cs c env r1 (Err ECanonicalize)
  | sr_label base sp : ~ created_late c (seconds (se_sys env)) -> ~ expires_early c (seconds (se_sys env)) ->
      signature_base (derive r1) cs (stamp c (seconds (se_sys env))) base ->
      inner_text (map component_item cs) (stamp c (seconds (se_sys env))) sp ->
      ~ legal_value (signature_text c (se_rnd env) base) ->
      sign_result r1 cs c env (cr_set_header cr r1 $"signature-input" ($"sig=" ++ sp)) (Err EConvertHeader)
  | sr_ok base sp : ~ created_late c (seconds (se_sys env)) -> ~ expires_early c (seconds (se_sys env)) ->
      signature_base (derive r1) cs (stamp c (seconds (se_sys env))) base ->
      inner_text (map component_item cs) (stamp c (seconds (se_sys env))) sp ->
      legal_value (signature_text c (se_rnd env) base) ->
      sign_result r1 cs c env
        (cr_set_header cr (cr_set_header cr r1 $"signature-input" ($"sig=" ++ sp)) $"signature" (signature_text c (se_rnd env) base))
        (Ok tt).

  Lemma sign_result_of (r r' : R) (c : signing_config) (env : sign_env) (res : result unit error) :
    sys_clock_ok (se_sys env) -> sign cr r c env = Done (r', res) ->
    exists r1 cs, add_auto_headers cr r c env = Done (r1, cs) /\ sign_result r1 cs c env r' res.
  Proof.
    intros Hc. unfold sign. destruct (add_auto_headers cr r c env) as [[r1 cs]|]; cbn [obind]; [|discriminate].
    intro H. exists r1, cs. split; [reflexivity|]. revert H.
    rewrite (unix_timestamp_ok _ Hc). cbn [obind]. rewrite sign_canon_eq.
    set (now := seconds (se_sys env)) in *.
    pose proof (created_late_iff c now) as C1. destruct (match created_at c now with Some t => _ | None => _ end).
    { intro H. injection H as <- <-. apply sr_created. now apply C1. }
    pose proof (expires_early_iff c now) as C2. destruct (match expires_at c now with Some t => _ | None => _ end).
    { intro H. injection H as <- <-. apply sr_expires; [intro F; apply C1 in F; discriminate|now apply C2]. }
    assert (N1 : ~ created_late c now) by (intro F; apply C1 in F; discriminate).
    assert (N2 : ~ expires_early c now) by (intro F; apply C2 in F; discriminate).
    destruct (canonicalize (cr_rl cr) r1 (CanonConfig None cs (stamp c now))) as [[[base si]|e]|] eqn:Ec; cbn [obind]; [| |discriminate].
    - apply canonicalize_ok in Ec. cbn [cc_components cc_params] in Ec. destruct Ec as [Eb ->].
      unfold cc_to_signature_input, si_to_string, si_new. cbn [si_label si_list cc_get_label cc_label cc_components cc_params].
      destruct (ser_dict1 $"sig" (cl_new cs (stamp c now))) as [t|] eqn:Et; cbn [unwrap obind]; [|discriminate].
      apply label_text in Et. destruct Et as (sp & Es & ->). unfold cl_new in Es. cbn [il_items il_params] in Es.
      rewrite <- comp_items_eq in Es. rewrite (legal_parse _ (plain_legal _ (input_text_plain _ _ _ Es))).
      change (sig_header_text (sc_label c) (sg_sign (sc_signature c) (se_rnd env) base)) with (signature_text c (se_rnd env) base).
      unfold hvalue_parse. pose proof (legal_iff (signature_text c (se_rnd env) base)) as Q.
      destruct (hvalue_ok (signature_text c (se_rnd env) base)).
      + intro H. injection H as <- <-. eapply sr_ok; eauto. now apply Q.
      + intro H. injection H as <- <-. eapply sr_label; eauto. intro F. apply Q in F. discriminate.
    - apply canonicalize_err in Ec. cbn [cc_components] in Ec. destruct Ec as (os & Ho & Hl & ->).
      intro H. injection H as <- <-.
      assert (X : exists q, In q cs /\ derive r1 q = Done None).
      { clear - Ho Hl. induction Ho as [|q o cs os H _ IH]; [now cbn in Hl|]. destruct o as [v|].
        - destruct IH as (q' & Hq & D); [exact Hl|]. exists q'. split; [now right|exact D].
        - exists q. split; [now left|exact H]. }
      destruct X as (q & Hq & D). eapply sr_missing; eauto.
      clear - Ho. induction Ho as [|q o cs os H _ IH]; intros q' []; [subst; congruence|now apply IH].
  Qed.

  (** *** What a successful [sign] leaves on the request *)
  Lemma signature_base_ext (f g : component -> outcome (option str)) (cs : list component) (p : params) (base : str) :
    (forall q, In q cs -> f q = g q) -> signature_base f cs p base -> signature_base g cs p base.
  Proof.
    intros H (ids & vals & sp & H1 & H2 & H3). exists ids, vals, sp. split; [exact H1|]. split; [|exact H3].
    clear H1 H3. induction H2 as [|q v cs vals Hq _ IH]; constructor.
    - rewrite <- H by now left. exact Hq.
    - apply IH. intros x Hx. apply H. now right.
  Qed.
  Lemma keeps_ext {A} (P Q : A -> Prop) (l l' : list A) : (forall x, P x <-> Q x) -> keeps P l l' -> keeps Q l l'.
  Proof. intros H. induction 1; constructor; try assumption; [now apply H|]. now rewrite <- H. Qed.
  Lemma covered_ext (f g : component -> outcome (option str)) (c : signing_config) (cs : list component) :
    (forall q, f q = g q) -> covered f c cs -> covered g c cs.
  Proof.
    intro H. unfold covered. destruct (sc_skip_missing c); [|trivial]. apply keeps_ext.
    intro q. unfold has_value. now rewrite H.
  Qed.
  Lemma auto_signature_headers (r r1 : R) (c : signing_config) (q : component) :
    auto_changed (cr_rl cr) c r r1 -> signature_header q -> derive r1 q = derive r q.
  Proof.
    intros H Q. destruct (H q) as [E|(_ & [[E _]|[[E _]|[E _]]])]; [exact E|..]; destruct Q as [-> | ->]; discriminate.
  Qed.
  Lemma signed_view_eq (r r1 r' : R) (c : signing_config) (q : component) :
    auto_changed (cr_rl cr) c r r1 -> (forall q, ~ signature_header q -> derive r' q = derive r1 q) ->
    signed_view (cr_rl cr) r r' q = derive r1 q.
  Proof.
    intros A F. unfold signed_view. destruct q as [d|h].
    - apply F. intros [E|E]; discriminate.
    - destruct (list_eq_dec ascii_dec h $"signature") as [->|N1]; [symmetry; apply (auto_signature_headers _ _ _ _ A); now left|].
      destruct (list_eq_dec ascii_dec h $"signature-input") as [->|N2]; [symmetry; apply (auto_signature_headers _ _ _ _ A); now right|].
      apply F. intros [E|E]; congruence.
  Qed.
  Lemma sign_ok_facts (r r' : R) (c : signing_config) (env : sign_env) :
    sys_clock_ok (se_sys env) -> sign cr r c env = Done (r', Ok tt) ->
    let now := seconds (se_sys env) in
    let view := signed_view (cr_rl cr) r r' in
    exists cs base sp,
      covered view c cs /\ ~ created_late c now /\ ~ expires_early c now
      /\ signature_base view cs (stamp c now) base
      /\ inner_text (map component_item cs) (stamp c now) sp
      /\ derive r' (CHeader $"signature-input") = Done (Some ($"sig=" ++ sp))
      /\ legal_value (signature_text c (se_rnd env) base)
      /\ (plain (signature_text c (se_rnd env) base) ->
          derive r' (CHeader $"signature") = Done (Some (signature_text c (se_rnd env) base))).
  Proof.
    intros Hc H now view. apply (sign_result_of r r' c env (Ok tt) Hc) in H. destruct H as (r1 & cs & A & H).
    pose proof (auto_headers_changed r r1 cs c env A) as Hch. pose proof (auto_covered r r1 cs c env A) as Hcov.
    inversion H as [| | | |base sp N1 N2 B I Lg E]; subst. exists cs, base, sp.
    assert (V : forall q, view q = derive r1 q).
    { intro q. apply (signed_view_eq r r1 _ c q Hch). intros q' N.
      rewrite (cl_set_other _ L), (cl_set_other _ L); [reflexivity|intro; subst; apply N; now right|intro; subst; apply N; now left]. }
    split; [apply (covered_ext (derive r1)); [now symmetry|exact Hcov]|].
    split; [exact N1|]. split; [exact N2|].
    split; [apply (signature_base_ext (derive r1)); [now symmetry|exact B]|].
    split; [exact I|]. split; [|split; [exact Lg|]].
    - rewrite (cl_set_other _ L) by discriminate. apply (cl_set _ L). now apply (input_text_plain _ _ _ I).
    - intro P. now apply (cl_set _ L).
  Qed.
  (** Frame: every outcome. *)
  Lemma sign_frame_derive (r r' : R) (c : signing_config) (env : sign_env) (res : result unit error) :
    sys_clock_ok (se_sys env) -> sign cr r c env = Done (r', res) ->
    forall q, derive r' q = derive r q
      \/ signature_header q
      \/ derive r q = Done None
         /\ (q = CHeader $"date" /\ sc_add_date c = true
             \/ q = CHeader $"host" /\ sc_add_host c = true
             \/ q = CHeader $"digest" /\ sc_compute_digest c = true).
  Proof.
    intros Hc H. apply (sign_result_of r r' c env res Hc) in H. destruct H as (r1 & cs & A & H).
    pose proof (auto_headers_changed r r1 cs c env A) as Hch. intro q.
    assert (Q : signature_header q \/ ~ signature_header q).
    { unfold signature_header. destruct (header_dec q $"signature"); [tauto|]. destruct (header_dec q $"signature-input"); tauto. }
    destruct Q as [Q|Q]; [tauto|].
    assert (E : derive r' q = derive r1 q).
    { inversion H; subst; try reflexivity; rewrite ?(cl_set_other _ L); try reflexivity;
        intro; subst; apply Q; solve [now left|now right]. }
    rewrite E. destruct (Hch q) as [F|F]; tauto.
  Qed.
  Lemma sign_failed_headers (r r' : R) (c : signing_config) (env : sign_env) (e : error) :
    sys_clock_ok (se_sys env) -> sign cr r c env = Done (r', Err e) ->
    derive r' (CHeader $"signature") = derive r (CHeader $"signature")
    /\ (derive r' (CHeader $"signature-input") = derive r (CHeader $"signature-input")
        \/ e = EConvertHeader /\ exists base, ~ legal_value (signature_text c (se_rnd env) base)).
  Proof.
    intros Hc H. apply (sign_result_of r r' c env _ Hc) in H. destruct H as (r1 & cs & A & H).
    pose proof (auto_headers_changed r r1 cs c env A) as Hch.
    pose proof (auto_signature_headers r r1 c (CHeader $"signature") Hch (or_introl eq_refl)) as E1.
    pose proof (auto_signature_headers r r1 c (CHeader $"signature-input") Hch (or_intror eq_refl)) as E2.
    inversion H as [| | |base sp N1 N2 B I Lg E|]; subst; try (split; [exact E1|left; exact E2]).
    split; [rewrite (cl_set_other _ L) by discriminate; exact E1|]. right. split; [reflexivity|]. eauto.
  Qed.
  Lemma sign_errors (r r' : R) (c : signing_config) (env : sign_env) (res : result unit error) :
    sys_clock_ok (se_sys env) -> sign cr r c env = Done (r', res) ->
    let now := seconds (se_sys env) in
    (res = Err EInvalidSignatureCreationDate <-> created_late c now)
    /\ (res = Err EInvalidSignatureExpiresDate <-> ~ created_late c now /\ expires_early c now)
    /\ (res = Ok tt \/ res = Err EInvalidSignatureCreationDate \/ res = Err EInvalidSignatureExpiresDate
        \/ res = Err ECanonicalize \/ res = Err EConvertHeader)
    /\ (res = Err ECanonicalize -> sc_skip_missing c = false
        /\ exists q, In q (sc_components c) /\ derive r' q = Done None).
  Proof.
    intros Hc H. cbv zeta. apply (sign_result_of r r' c env _ Hc) in H. destruct H as (r1 & cs & A & H).
    pose proof (auto_covered r r1 cs c env A) as Hcov.
    inversion H as [C1|C1 C2|q C1 C2 C3 C4 C5|base sp C1 C2 C3 C4 C5|base sp C1 C2 C3 C4 C5]; subst;
      repeat split; try discriminate; try tauto.
    - unfold covered in Hcov. destruct (sc_skip_missing c); [|reflexivity]. exfalso.
      assert (K : forall l l', keeps (has_value (derive r')) l l' -> In q l' -> has_value (derive r') q).
      { clear. induction 1; intro F; [destruct F|destruct F; subst; auto|auto]. }
      destruct (K _ _ Hcov C3) as (v & Hv). congruence.
    - exists q. split; [|assumption]. unfold covered in Hcov. destruct (sc_skip_missing c); [|now subst].
      assert (K : forall l l', keeps (has_value (derive r')) l l' -> In q l' -> In q l).
      { clear. induction 1; intro F; [exact F|destruct F; [now left|right; auto]|right; auto]. }
      exact (K _ _ Hcov C3).
  Qed.
End Client.
