(** Proofs about the values of the draft (for PropDraft.v). *)
From Verif Require Export SpecDraft LineFacts SignFacts CanonFacts MoreVerify.
From Verif Require Import StrFacts UrlNormal AlikeFacts RoundTrip ReadFacts.

Lemma special_web (hp : host_parser) (s : str) (u : url) : special_url hp s u -> web_url u.
Proof.
  intros (t & sch & sl & auth & path & q & f & _ & _ & _ & _ & _ & _ & _ & A & Ha & _ & P & _).
  split; [exact Ha|]. split; [now inversion A|].
  destruct P as [(_ & ->)|(c & path' & _ & _ & P)]; [discriminate|].
  destruct (path_normal _ _ P) as (t' & -> & _). discriminate.
Qed.

(** ** Stripping *)
Lemma blank_plain (l : str) : Forall blank l -> plain l.
Proof. apply Forall_impl. intros c [-> | ->]; [left; unfold visible; cbn; lia|now right]. Qed.
Lemma blank_commas (l : str) : Forall blank l -> count_occ ascii_dec l ","%char = 0%nat.
Proof. intro F. apply count_occ_not_In. intro I. rewrite Forall_forall in F. apply F in I. destruct I; discriminate. Qed.
Lemma blanks_prefix (a b t1 t2 : str) : Forall blank a -> Forall blank b -> a ++ t1 = b ++ t2 ->
  (forall c x, t1 = c :: x -> ~ blank c) -> (forall c x, t2 = c :: x -> ~ blank c) -> t1 = t2.
Proof.
  intros A. revert b. induction A as [|c a C A IH]; intros b B E N1 N2.
  - destruct B as [|d b D B]; [exact E|]. cbn [app] in E. exfalso. now apply (N1 d (b ++ t2)).
  - destruct B as [|d b D B]; cbn [app] in E.
    + exfalso. symmetry in E. now apply (N2 c (a ++ t1)).
    + injection E as -> E. now apply (IH b).
Qed.
Lemma stripped_blanks (s t : str) : stripped s t -> Forall blank s -> t = [].
Proof.
  intros ((a & b & _ & _ & ->) & H & _) F. destruct t as [|c x]; [reflexivity|]. exfalso.
  rewrite Forall_app, Forall_app in F. destruct F as (_ & F & _). inversion F; subst. now apply (H c x).
Qed.
Lemma rev_blanks (l : str) : Forall blank l -> Forall blank (rev l).
Proof. apply Forall_rev. Qed.
Lemma stripped_fun (s t t' : str) : stripped s t -> stripped s t' -> t = t'.
Proof.
  intros S S'. pose proof S as S0. pose proof S' as S0'.
  destruct S as ((a & b & A & B & E) & H1 & H2), S' as ((a' & b' & A' & B' & E') & H1' & H2').
  destruct t as [|c x].
  { symmetry. apply (stripped_blanks s); [exact S0'|]. subst s. now apply Forall_app. }
  destruct t' as [|c' x'].
  { apply (stripped_blanks s); [exact S0|]. rewrite E'. now apply Forall_app. }
  rewrite E in E'. apply blanks_prefix in E'; auto.
  - apply (f_equal (@rev ascii)) in E'. rewrite !rev_app_distr in E'.
    apply blanks_prefix in E'; auto using rev_blanks.
    + apply (f_equal (@rev ascii)) in E'. now rewrite !rev_involutive in E'.
    + intros d y X. apply (f_equal (@rev ascii)) in X. rewrite rev_involutive in X. cbn [rev] in X. now apply (H2 d (rev y)).
    + intros d y X. apply (f_equal (@rev ascii)) in X. rewrite rev_involutive in X. cbn [rev] in X. now apply (H2' d (rev y)).
  - intros d y X. cbn [app] in X. injection X as -> _. now apply (H1 d x).
  - intros d y X. cbn [app] in X. injection X as -> _. now apply (H1' d x').
Qed.
Lemma stripped_commas (s t : str) : stripped s t -> count_occ ascii_dec s ","%char = count_occ ascii_dec t ","%char.
Proof. intros ((a & b & A & B & ->) & _). rewrite !count_occ_app, (blank_commas a A), (blank_commas b B). lia. Qed.
Lemma stripped_no_lf (s t : str) : stripped s t -> no_lf s -> no_lf t.
Proof. intros ((a & b & _ & _ & ->) & _) N I. apply N. apply in_app_iff. right. apply in_app_iff. now left. Qed.
Lemma stripped_not_plain (s t : str) : stripped s t -> ~ plain s -> t <> [].
Proof.
  intros ((a & b & A & B & ->) & _) N ->. apply N. apply Forall_app. split; [now apply blank_plain|now apply blank_plain].
Qed.
(** The first value is never the joined text of several. *)
Lemma joined_other (v w1 w2 t1 t2 : str) (ts : list str) : stripped v t1 -> v <> comma_spaced (t1 :: t2 :: ts).
Proof.
  intros S E. apply stripped_commas in S. rewrite E in S.
  change (comma_spaced (t1 :: t2 :: ts)) with (t1 ++ $", " ++ comma_spaced (t2 :: ts)) in S.
  rewrite !count_occ_app in S. change (count_occ ascii_dec $", " ","%char) with 1%nat in S. lia.
Qed.

(** ** Target URIs *)
Lemma port_text_iff (o : option N) (t : str) : port_text o t <-> t = match o with Some p => $":" ++ dec_of_N p | None => [] end.
Proof.
  unfold port_text. destruct o as [n|]; [|reflexivity]. split.
  - intros (ds & D & ->). apply digits_iff in D. now subst ds.
  - intros ->. exists (dec_of_N n). split; [now apply digits_iff|reflexivity].
Qed.
Lemma prefixed_iff (c : ascii) (o : option str) (t : str) : prefixed c o t <-> t = opt_str [c] o.
Proof. now destruct o. Qed.
Lemma host_port_iff (u : url) (t : str) : host_port u t <->
  exists h, u_host u = Some h /\ t = h ++ match u_port u with Some p => $":" ++ dec_of_N p | None => [] end.
Proof.
  split; [intros (h & p & H & P & ->)|intros (h & H & ->)].
  - apply port_text_iff in P. subst p. eauto.
  - exists h. eexists. split; [exact H|]. split; [now apply port_text_iff|reflexivity].
Qed.
Lemma userinfo_nil (u : url) : List.length (url_userinfo u) = 0%nat <-> u_username u = [] /\ u_password u = None.
Proof.
  unfold url_userinfo. destruct (u_username u) as [|c n], (u_password u) as [w|]; cbn [opt_str].
  - rewrite !app_length. cbn. split; [lia|now intros [_ X]].
  - cbn. tauto.
  - rewrite !app_length. cbn. split; [lia|now intros [X _]].
  - rewrite !app_length. cbn. split; [lia|now intros [X _]].
Qed.
Lemma target_uri_iff (u : url) (a q : str) : web_url u -> host_port u a -> prefixed "?" (u_query u) q ->
  (url_to_string u = u_scheme u ++ $"://" ++ a ++ sent_path u ++ q <->
   u_username u = [] /\ u_password u = None /\ u_fragment u = None).
Proof.
  intros (W1 & _ & W2) H Q. apply host_port_iff in H. destruct H as (h & H & ->). apply prefixed_iff in Q. subst q.
  assert (Ep : sent_path u = u_path u) by (unfold sent_path; now destruct (u_path u)). rewrite Ep.
  unfold url_to_string. rewrite W1, H. cbn [opt_str app]. rewrite <- !app_assoc. split.
  - intro E. apply (f_equal (@List.length ascii)) in E. rewrite !app_length in E.
    change (List.length $"//") with 2%nat in E. change (List.length $":") with 1%nat in E. change (List.length $"://") with 3%nat in E.
    change ["?"%char] with $"?" in E. assert (U : List.length (url_userinfo u) = 0%nat) by lia. apply userinfo_nil in U. destruct U as [U1 U2].
    split; [exact U1|]. split; [exact U2|]. destruct (u_fragment u); [|reflexivity]. cbn [opt_str] in E. rewrite app_length in E. cbn in E. lia.
  - intros (E1 & E2 & E3). unfold url_userinfo. rewrite E1, E2, E3. cbn [opt_str]. rewrite app_nil_r. reflexivity.
Qed.

(** ** Uniqueness *)
Lemma stripped_all_fun (l vs ws : list str) : Forall2 stripped l vs -> Forall2 stripped l ws -> vs = ws.
Proof.
  intro F. revert ws. induction F as [|s t l vs S F IH]; intros ws G; inversion G; subst; [reflexivity|].
  f_equal; [eapply stripped_fun; eassumption|now apply IH].
Qed.
Lemma named_inj (a b : str) : derived_named a [] = derived_named b [] -> a = b.
Proof. unfold derived_named. congruence. Qed.
Ltac other_name := match goal with H : derived_named _ _ = derived_named _ _ |- _ => now apply named_inj in H end.
Lemma draft_value_fun (method : str) (u : url) (hs : header_map) (c : component) (v w : str) :
  draft_value method u hs c v -> draft_value method u hs c w -> v = w.
Proof.
  assert (HP : forall a b, host_port u a -> host_port u b -> a = b).
  { intros a b A B. apply host_port_iff in A, B. destruct A as (h & A & ->), B as (h' & B & ->). congruence. }
  assert (PF : forall a b, prefixed "?" (u_query u) a -> prefixed "?" (u_query u) b -> a = b).
  { intros a b A B. apply prefixed_iff in A, B. congruence. }
  assert (Main : forall c', draft_value method u hs c v -> draft_value method u hs c' w -> c' = c -> v = w); [|intros; now apply (Main c)].
  intros c' A B. destruct A, B; intro E; try reflexivity; try (now apply named_inj in E); try discriminate E.
  - f_equal. f_equal. f_equal; [now apply HP|]. f_equal. now apply PF.
  - now apply HP.
  - f_equal. now apply PF.
  - congruence.
  - congruence.
  - congruence.
  - injection E as ->. f_equal. eapply stripped_all_fun; eassumption.
Qed.

(** ** Values of the code *)
Section Derive.
  Variables (method : str) (u : url) (hs : header_map) (derive : component -> outcome (option str)) (host : option str).
  Hypothesis W : web_url u.
  Hypothesis Dd : forall n, derive (derived_named n []) = dc_derive (Derived (Item (BString n) [])) host method u.
  (** A header is its first value if that is plain, else nothing or the empty text. *)
  Hypothesis Dh : forall h t, derive (CHeader h) = Done (Some t) ->
    first_value hs h = Some t /\ plain t \/ t = [] /\ exists v, first_value hs h = Some v /\ ~ plain v.
  Hypothesis Dh' : forall h t, first_value hs h = Some t -> plain t -> derive (CHeader h) = Done (Some t).

  Lemma conforming_iff (c : component) (v : str) : draft_value method u hs c v -> c <> derived_named $"@authority" [] ->
    (derive c = Done (Some v) <-> conforming u hs c).
  Proof.
    intros V NA. pose proof (line_derive [] host method u) as (Em & Es & Ep & Eq & Et & Er & _).
    assert (Sp : sent_path u = u_path u) by (unfold sent_path; destruct W as (_ & _ & N); now destruct (u_path u)).
    destruct V as [|a q H Q|a H| |q Q| |q Q|Q|h vs Ne F]; try rewrite Dd.
    - rewrite Em. split; [constructor|reflexivity].
    - rewrite Et, url_text_iff. split.
      + intro E. symmetry in E. apply target_uri_iff in E; auto. destruct E as (E1 & E2 & E3). now constructor.
      + inversion 1; subst. symmetry. now apply target_uri_iff.
    - contradiction.
    - rewrite Es. split; [constructor|reflexivity].
    - rewrite Er, url_text_iff, Sp. split; [|inversion 1]. intro E. exfalso. symmetry in E. revert E. now apply url_longer.
    - rewrite Ep, Sp. split; [constructor|reflexivity].
    - rewrite Eq, Q. split; [|reflexivity]. intros _. constructor. rewrite Q. discriminate.
    - rewrite Eq, Q. split; [discriminate|]. inversion 1; subst. contradiction.
    - split.
      + intro D. apply Dh in D. unfold first_value in D. inversion F as [E1 E2|x t l ts S F' E1 E2].
        { now rewrite <- E1 in Ne. }
        rewrite <- E1 in D. destruct D as [[D P]|(D & v0 & D' & N)].
        * injection D as D. subst vs. destruct F' as [|y t2 l ts S2 F'].
          -- cbn [comma_spaced] in *. subst x. econstructor; [symmetry; exact E1|exact S|exact P].
          -- exfalso. eapply (joined_other x x x t t2 ts); eassumption.
        * exfalso. injection D' as <-. subst vs. pose proof (stripped_not_plain _ _ S N) as Nt. destruct ts as [|t2 ts]; [contradiction|].
          cbn [comma_spaced] in D. apply app_eq_nil in D. now destruct D.
      + inversion 1 as [| | | | |h' v0 E S P]; subst h'. rewrite E in F. inversion F as [|x t l ts S' F' E1 E2]; subst. inversion F'; subst.
        cbn [comma_spaced]. rewrite (stripped_fun _ _ _ S' S). apply Dh'; [|exact P]. unfold first_value. now rewrite E.
  Qed.
  (** A conforming component has a value in the draft. *)
  Lemma conforming_has (c : component) : conforming u hs c -> exists v, draft_value method u hs c v.
  Proof.
    destruct W as (_ & Hh & _). destruct (u_host u) as [h|] eqn:Eh; [|contradiction].
    assert (HP : exists a, host_port u a) by (eexists; apply host_port_iff; eauto). destruct HP as (a & HP).
    intros [| | | |Q|h' v E S P]; try (eexists; econstructor; eassumption).
    - eexists. econstructor; [exact HP|now apply prefixed_iff].
    - destruct (u_query u) as [q|] eqn:E; [|contradiction]. exists ("?"%char :: q). now apply dv_query.
    - exists (comma_spaced [v]). constructor; rewrite E; [discriminate|]. now constructor.
  Qed.
End Derive.

Lemma component_eq_authority (method : str) (u : url) (hs : header_map) (c : component) (v : str) : draft_value method u hs c v ->
  c = derived_named $"@authority" [] \/ c <> derived_named $"@authority" [].
Proof. intros [| | | | | | | |]; try (now left); right; intro E; try discriminate E; now apply named_inj in E. Qed.
Lemma rq_conforming (r : rq) (c : component) (v : str) : web_url (rq_url r) -> draft_value (rq_method r) (rq_url r) (rq_headers r) c v ->
  (rq_derive r c = Done (Some v) <-> conforming (rq_url r) (rq_headers r) c \/ default_authority (rq_url r) c).
Proof.
  intros W V. destruct (component_eq_authority _ _ _ _ _ V) as [-> | NA].
  - rewrite rq_authority. inversion V as [| |a H| | | | | |]; subst a.
    apply host_port_iff in H. destruct H as (h & E & ->). rewrite E. split.
    + intro X. injection X as X. right. split; [reflexivity|]. apply (f_equal (@List.length ascii)) in X. rewrite app_length in X.
      revert X. destruct (u_port (rq_url r)); [|reflexivity]. intro X. cbn [List.length] in X. lia.
    + intros [C|[_ P]]; [inversion C|]. rewrite P, app_nil_r. reflexivity.
  - rewrite (conforming_iff (rq_method r) (rq_url r) (rq_headers r) (rq_derive r) (rq_host r)); auto.
    + split; [now left|intros [C|[C _]]; [exact C|contradiction]].
    + intros h t D. apply rq_header_derive in D. now left.
    + intros h t D P. now apply rq_header_derive.
Qed.
Lemma mr_conforming (r : mock) (c : component) (v : str) : web_url (mr_url r) -> draft_value (mr_method r) (mr_url r) (mr_headers r) c v ->
  (mr_derive r c = Done (Some v) <-> conforming (mr_url r) (mr_headers r) c).
Proof.
  intros W V. destruct (component_eq_authority _ _ _ _ _ V) as [-> | NA].
  - rewrite mr_authority. split; [discriminate|inversion 1].
  - apply (conforming_iff (mr_method r) (mr_url r) (mr_headers r) (mr_derive r) (mr_host r)); auto.
    + intros h t D. now apply mr_header_derive in D.
    + intros h t D P. apply mr_header_derive. now left.
Qed.

(** ** Bases *)
Section Base.
  Variables (method : str) (u : url) (hs : header_map) (derive : component -> outcome (option str)) (good : component -> Prop).
  Hypothesis Good : forall c v, draft_value method u hs c v -> (derive c = Done (Some v) <-> good c).
  Hypothesis Has : forall c, good c -> exists v, draft_value method u hs c v.

  Lemma draft_base_of (cs : list component) (p : params) (base : str) : Forall good cs ->
    (signature_base derive cs p base <-> draft_base method u hs cs p base).
  Proof.
    intro F.
    assert (E : forall vs, Forall2 (fun c v => derive c = Done (Some v)) cs vs <-> Forall2 (draft_value method u hs) cs vs).
    { induction F as [|c cs G F IH]; intro vs.
      - split; intro H; inversion H; constructor.
      - destruct (Has c G) as (v & V). pose proof (proj2 (Good c v V) G) as D.
        split; intro H; inversion H as [|x w l ws Hw H' E1 E2]; subst; constructor; try (now apply IH).
        + rewrite D in Hw. injection Hw as <-. exact V.
        + rewrite <- (draft_value_fun _ _ _ _ _ _ V Hw). exact D. }
    split; intros (ids & vals & sp & I & V & T & B); exists ids, vals, sp; (split; [exact I|]; split; [now apply E|]; now split).
  Qed.

  Hypothesis Lc : forall c v, derive c = Done (Some v) -> ~ is_query_params c -> no_lf v.
  Hypothesis Ld : forall c v, draft_value method u hs c v -> no_lf v.
  Lemma lf_count_none (v : str) : no_lf v -> lf_count v = 0%nat.
  Proof. intro N. unfold lf_count. now apply count_occ_not_In. Qed.
  Lemma draft_not_query_params (c : component) (v : str) : draft_value method u hs c v -> ~ is_query_params c.
  Proof. intros V (p & E). destruct V; try discriminate E; unfold derived_named in E; discriminate E. Qed.
  Lemma draft_base_iff (cs : list component) (p : params) (base : str) : signature_base derive cs p base ->
    (draft_base method u hs cs p base <-> Forall good cs).
  Proof.
    intro B. split; [|intro F; now apply draft_base_of].
    intros (ids2 & vs2 & sp2 & I2 & V2 & T2 & B2). destruct B as (ids1 & vs1 & sp1 & I1 & V1 & T1 & B1).
    rewrite B1 in B2. apply base_last in B2; try (eapply last_no_lf; eassumption). destruct B2 as [_ B].
    pose proof (identifiers_fun _ _ _ I1 I2) as <-.
    assert (vs1 = vs2) as <-.
    { apply (values_bound ids1 vs1 vs2); try exact B.
      - rewrite <- (Forall2_length _ _ _ I1). apply (Forall2_length _ _ _ V1).
      - rewrite <- (Forall2_length _ _ _ I2). apply (Forall2_length _ _ _ V2).
      - clear -V1 V2 Lc Ld. revert vs2 V2. induction V1 as [|c0 v cs vs Hv V IH]; intros vs2 V2; inversion V2; subst; constructor; [|now apply IH].
        rewrite !lf_count_none; [reflexivity|eapply Ld; eassumption|]. eapply Lc; [eassumption|]. eapply draft_not_query_params. eassumption. }
    clear -V1 V2 Good. revert V2. induction V1 as [|c0 v cs vs Hv V IH]; intro V2; inversion V2; subst; constructor; [|now apply IH].
    eapply Good; eassumption.
  Qed.
End Base.
Lemma comma_no_lf (vs : list str) : Forall no_lf vs -> no_lf (comma_spaced vs).
Proof.
  induction 1 as [|v vs V F IH]; [intros []|]. destruct vs as [|w vs]; [exact V|].
  change (comma_spaced (v :: w :: vs)) with (v ++ $", " ++ comma_spaced (w :: vs)).
  intro I. apply in_app_iff in I. destruct I as [I|I]; [now apply V|]. apply in_app_iff in I. destruct I as [I|I]; [|now apply IH].
  destruct I as [I|[I|[]]]; discriminate I.
Qed.
Lemma draft_no_lf (method : str) (u : url) (hs : header_map) (c : component) (v : str) :
  line_request method u -> one_line_fields hs -> draft_value method u hs c v -> no_lf v.
Proof.
  intros (Lm & Ls & _ & _ & Lh & Lp & Lq & _) O V.
  assert (App : forall a b, no_lf a -> no_lf b -> no_lf (a ++ b)) by (intros a b A B I; apply in_app_iff in I; destruct I; [now apply A|now apply B]).
  assert (Lit : forall s, forallb (fun c => negb (Ascii.eqb c ch_lf)) s = true -> no_lf s).
  { intros s E I. rewrite forallb_forall in E. apply E in I. now rewrite Ascii.eqb_refl in I. }
  assert (Sp : no_lf (sent_path u)). { unfold sent_path. destruct (u_path u); [now apply Lit|exact Lp]. }
  assert (HP : forall a, host_port u a -> no_lf a).
  { intros a (h & p & E & P & ->). rewrite E in Lh. apply App; [exact Lh|]. apply port_text_iff in P. subst p.
    destruct (u_port u) as [n|]; [|intros []]. apply App; [now apply Lit|].
    intro I. pose proof (dec_of_N_digits n) as D. apply (forallb_In _ _ _ D) in I. discriminate. }
  assert (PQ : forall q, prefixed "?" (u_query u) q -> no_lf q).
  { intros q P. unfold prefixed in P. destruct (u_query u) as [x|]; subst q; [|intros []]. apply (App $"?" x); [now apply Lit|exact Lq]. }
  destruct V as [|a q H Q|a H| |q Q| |q Q|Q|h vs Ne F]; auto.
  - apply App; [exact Ls|]. apply App; [now apply Lit|]. apply App; [now apply HP|]. apply App; [exact Sp|now apply PQ].
  - rewrite Q in Lq. apply (App $"?" q); [now apply Lit|exact Lq].
  - apply comma_no_lf. assert (A : Forall no_lf (hm_get_all hs h)).
    { unfold hm_get_all. apply Forall_forall. intros x I. apply in_map_iff in I. destruct I as (y & <- & I). apply filter_In in I.
      unfold one_line_fields in O. rewrite Forall_forall in O. now apply O. }
    clear Ne. induction F as [|s t l ts S F IH]; [constructor|]. inversion A; subst. constructor; [|now apply IH].
    eapply stripped_no_lf; eassumption.
Qed.

Lemma authority_has (method : str) (u : url) (hs : header_map) (c : component) : web_url u -> default_authority u c ->
  exists v, draft_value method u hs c v.
Proof.
  intros (_ & H & _) [-> _]. destruct (u_host u) as [h|] eqn:E; [|contradiction].
  eexists. apply dv_authority. apply host_port_iff. eauto.
Qed.
Definition rq_good (r : rq) (c : component) : Prop := conforming (rq_url r) (rq_headers r) c \/ default_authority (rq_url r) c.
Lemma rq_base_iff (r : rq) (cs : list component) (p : params) (base : str) :
  web_url (rq_url r) -> line_request (rq_method r) (rq_url r) -> one_line_fields (rq_headers r) ->
  signature_base (rq_derive r) cs p base ->
  (draft_base (rq_method r) (rq_url r) (rq_headers r) cs p base <-> Forall (rq_good r) cs).
Proof.
  intros W L O. apply draft_base_iff.
  - intros c v V. now apply rq_conforming.
  - intros c [C|C]; [now apply conforming_has with (1 := W)|now apply authority_has].
  - intros c v D N. now apply (rq_no_lf r c v L N).
  - intros c v V. now apply (draft_no_lf _ _ _ _ _ L O V).
Qed.
Lemma mr_base_iff (r : mock) (cs : list component) (p : params) (base : str) :
  web_url (mr_url r) -> line_request (mr_method r) (mr_url r) -> one_line_fields (mr_headers r) ->
  signature_base (mr_derive r) cs p base ->
  (draft_base (mr_method r) (mr_url r) (mr_headers r) cs p base <-> Forall (conforming (mr_url r) (mr_headers r)) cs).
Proof.
  intros W L O. apply draft_base_iff.
  - intros c v V. now apply mr_conforming.
  - intros c C. now apply conforming_has with (1 := W).
  - intros c v D N. now apply (mr_no_lf r c v L N).
  - intros c v V. now apply (draft_no_lf _ _ _ _ _ L O V).
Qed.

(** ** Signing and verifying *)
Lemma rq_signed_draft (cr : client_request_like rq) (r r' : rq) (c : signing_config) (env : sign_env) : cr = rq_async \/ cr = rq_blocking ->
  sys_clock_ok (se_sys env) -> sign cr r c env = Done (r', Ok tt) ->
  web_url (rq_url r') -> line_request (rq_method r') (rq_url r') -> one_line_fields (rq_headers r') ->
  (forall q, In q (sc_components c) -> ~ signature_header q) ->
  let now := seconds (se_sys env) in
  exists cs base sp, covered (rq_derive r') c cs /\ signature_base (rq_derive r') cs (stamp c now) base
    /\ inner_text (map component_item cs) (stamp c now) sp
    /\ rq_derive r' (CHeader $"signature-input") = Done (Some ($"sig=" ++ sp))
    /\ (plain (signature_text c (se_rnd env) base) -> rq_derive r' (CHeader $"signature") = Done (Some (signature_text c (se_rnd env) base)))
    /\ (draft_base (rq_method r') (rq_url r') (rq_headers r') cs (stamp c now) base <-> Forall (rq_good r') cs).
Proof.
  intros Hc Ck Sg W L O N now. assert (Lw : client_laws cr) by (destruct Hc as [-> | ->]; [exact rq_async_laws|exact rq_blocking_laws]).
  assert (Rl : rl_derive (cr_rl cr) = rq_derive) by (destruct Hc as [-> | ->]; reflexivity).
  destruct (sign_ok_facts cr Lw r r' c env Ck Sg) as (cs & base & sp & Cov & _ & _ & B & I & Hi & _ & Hs).
  rewrite Rl in Hi, Hs.
  assert (V : forall q, In q (sc_components c) -> signed_view (cr_rl cr) r r' q = rq_derive r' q).
  { intros q Iq. destruct q as [d|h]; cbn [signed_view]; [now rewrite Rl|].
    destruct (list_eq_dec ascii_dec h $"signature") as [-> | _]; [exfalso; apply (N _ Iq); now left|].
    destruct (list_eq_dec ascii_dec h $"signature-input") as [-> | _]; [exfalso; apply (N _ Iq); now right|]. now rewrite Rl. }
  assert (Sub : forall q, In q cs -> In q (sc_components c)).
  { revert Cov. unfold covered. destruct (sc_skip_missing c); [|now intros ->]. intros K q Iq. now apply (keeps_sub _ _ _ K). }
  assert (B' : signature_base (rq_derive r') cs (stamp c now) base).
  { destruct B as (ids & vals & sp' & B1 & B2 & B3 & B4). exists ids, vals, sp'. split; [exact B1|]. split; [|now split].
    clear -B2 V Sub. induction B2 as [|q v cs vals D B2 IH]; [constructor|]. constructor.
    - rewrite <- D. symmetry. apply V, Sub. now left.
    - apply IH. intros x I. apply Sub. now right. }
  exists cs, base, sp. split; [|split; [exact B'|split; [exact I|split; [exact Hi|split; [exact Hs|now apply rq_base_iff]]]]].
  clear -Cov V. revert Cov. unfold covered. destruct (sc_skip_missing c); [|auto].
  apply keeps_agree. intros x Ix. unfold has_value. now rewrite (V x Ix).
Qed.
Lemma accepts_draft (r : mock) (c : verifying_config) (env : verify_env) : sys_clock_ok (ve_sys env) -> (vc_validate_date c = true -> utc_clock_ok (ve_utc env)) ->
  web_url (mr_url r) ->
  (forall input cc, header_value mr_server r $"signature-input" input -> input_reads input cc ->
     Forall (conforming (mr_url r) (mr_headers r)) (cc_components cc)) ->
  forall kid, (exists rem, verify mr_server r c env = Done (Ok (rem, kid))) <->
    exists cc sig base k, signature_headers mr_server r cc sig kid /\ times_ok env cc
      /\ draft_base (mr_method r) (mr_url r) (mr_headers r) (cc_components cc) (cc_params cc) base
      /\ In k (vc_keys c kid) /\ vf_verify k base sig = true
      /\ Forall (listed cc) (vc_required c) /\ date_ok c env cc /\ digest_ok mr_server r c.
Proof.
  intros K1 K2 W F kid. rewrite (verify_iff mr_server r c env K1 K2).
  assert (E : forall cc sig base, signature_headers mr_server r cc sig kid ->
    (signature_base (mr_derive r) (cc_components cc) (cc_params cc) base <->
     draft_base (mr_method r) (mr_url r) (mr_headers r) (cc_components cc) (cc_params cc) base)).
  { intros cc sig base (input & sigv & H & Rd & _). apply draft_base_of with (good := conforming (mr_url r) (mr_headers r)).
    - intros q v V. now apply mr_conforming.
    - intros q C. now apply conforming_has with (1 := W).
    - now apply (F input). }
  split.
  - intros (cc & sig & S & T & (base & k & B & I & V) & Ls & D & G). exists cc, sig, base, k.
    split; [exact S|]. split; [exact T|]. split; [now apply (E cc sig base S)|]. auto.
  - intros (cc & sig & base & k & S & T & B & I & V & Ls & D & G). exists cc, sig. split; [exact S|]. split; [exact T|]. split; [|auto].
    exists base, k. split; [now apply (E cc sig base S)|]. auto.
Qed.
Lemma stamp_types (c : signing_config) (now : Z) : draft_params (stamp c now) <-> sc_nonce c = None.
Proof.
  unfold stamp. split.
  - intro H. destruct (sc_nonce c) as [n|]; [|reflexivity]. exfalso.
    destruct (H $"nonce" (BToken n)) as [_ (s & X)]; [|now left|discriminate X].
    rewrite !in_app_iff. do 4 right. now left.
  - intros -> k b I. rewrite !in_app_iff in I. unfold opt_param in I.
    assert (Cases : k = $"alg" /\ is_string b \/ (k = $"created" \/ k = $"expires") /\ is_integer b \/ k = $"keyid" /\ is_string b).
    { destruct I as [[X|[]]|[I|[I|[[X|[]]|[]]]]]; try (injection X as <- <-).
      - left. split; [reflexivity|eexists; reflexivity].
      - destruct (created_at c now) as [t|]; [|destruct I]. destruct I as [X|[]]. injection X as <- <-. right. left. split; [now left|eexists; reflexivity].
      - destruct (expires_at c now) as [t|]; [|destruct I]. destruct I as [X|[]]. injection X as <- <-. right. left. split; [now right|eexists; reflexivity].
      - right. right. split; [reflexivity|eexists; reflexivity]. }
    destruct Cases as [[-> S]|[[[-> | ->] S]|[-> S]]]; (split; [intros [X|X]|intros X; cbn [In] in X]); try exact S; try discriminate X;
      repeat (destruct X as [X|X]; [discriminate X|]); destruct X.
Qed.
Lemma optional_needed (S Rem : Type) (sr : server_request_like S Rem) (r : S) (c : verifying_config) (env : verify_env) (input : str) (cc : canon_config) :
  sys_clock_ok (ve_sys env) -> (vc_validate_date c = true -> utc_clock_ok (ve_utc env)) ->
  header_value sr r $"signature-input" input -> input_reads input cc ->
  value_of $"alg" (cc_params cc) = None \/ value_of $"keyid" (cc_params cc) = None ->
  forall rem kid, verify sr r c env <> Done (Ok (rem, kid)).
Proof.
  intros K1 K2 H Rd N rem kid V. destruct (proj1 (verify_iff sr r c env K1 K2 kid) (ex_intro _ rem V)) as (cc' & sig & (input' & sigv & H' & Rd' & _ & _ & Kid & alg & Al) & _).
  assert (input' = input) as -> by (unfold header_value in *; congruence).
  pose proof (input_reads_unique _ _ _ Rd Rd') as <-. destruct N; congruence.
Qed.
Lemma rq_canon_draft (r : rq) (c : canon_config) (base : str) (si : signature_input) :
  web_url (rq_url r) -> line_request (rq_method r) (rq_url r) -> one_line_fields (rq_headers r) ->
  canonicalize rq_rl r c = Done (Ok (base, si)) ->
  (draft_base (rq_method r) (rq_url r) (rq_headers r) (cc_components c) (cc_params c) base <-> Forall (rq_good r) (cc_components c)).
Proof. intros W L O H. apply canonicalize_ok in H. destruct H as [H _]. now apply rq_base_iff. Qed.
Lemma mr_canon_draft (r : mock) (c : canon_config) (base : str) (si : signature_input) :
  web_url (mr_url r) -> line_request (mr_method r) (mr_url r) -> one_line_fields (mr_headers r) ->
  canonicalize mr_rl r c = Done (Ok (base, si)) ->
  (draft_base (mr_method r) (mr_url r) (mr_headers r) (cc_components c) (cc_params c) base <->
   Forall (conforming (mr_url r) (mr_headers r)) (cc_components c)).
Proof. intros W L O H. apply canonicalize_ok in H. destruct H as [H _]. now apply mr_base_iff. Qed.

(** ** A request on which many components differ *)
Definition other_req : rq :=
  Rq $"GET" (Url $"http" true [] None (Some $"example.com") (Some 8080%N) $"/a" None (Some $"top"))
    [($"accept", $"text/html"); ($"accept", $"text/plain")] BNone.
Lemma other_web : web_url (rq_url other_req).
Proof. repeat split; discriminate. Qed.
Lemma stripped_self (s : str) : (forall c x, s = c :: x -> ~ blank c) -> (forall c x, s = x ++ [c] -> ~ blank c) -> stripped s s.
Proof. intros A B. split; [|now split]. exists [], []. rewrite app_nil_r. split; [constructor|]. split; [constructor|reflexivity]. Qed.
Definition blankb (c : ascii) : bool := (Ascii.eqb c " " || Ascii.eqb c "009")%bool.
Lemma stripped_check (s : str) : forallb (fun c => negb (blankb c)) (firstn 1 s ++ firstn 1 (rev s)) = true -> stripped s s.
Proof.
  intro F. rewrite forallb_app in F. apply andb_prop in F. destruct F as [F G].
  assert (N : forall c, negb (blankb c) = true -> ~ blank c). { intros c X [-> | ->]; discriminate X. }
  apply stripped_self.
  - intros c x ->. cbn [firstn forallb] in F. apply N. now apply andb_prop in F.
  - intros c x ->. rewrite rev_app_distr in G. cbn [rev app firstn forallb] in G. apply N. now apply andb_prop in G.
Qed.
Lemma other_port : host_port (rq_url other_req) $"example.com:8080".
Proof. apply host_port_iff. exists $"example.com". split; reflexivity. Qed.
Lemma values_differ : web_url (rq_url other_req)
  /\ forall q, In q (CHeader $"accept" :: map (fun n => derived_named n []) [$"@target-uri"; $"@authority"; $"@request-target"; $"@query"]) ->
     exists v, draft_value (rq_method other_req) (rq_url other_req) (rq_headers other_req) q v /\ rq_derive other_req q <> Done (Some v).
Proof.
  split; [exact other_web|]. intros q I. cbn [map In] in I. destruct I as [<-|[<-|[<-|[<-|[<-|[]]]]]].
  - exists (comma_spaced [$"text/html"; $"text/plain"]). split; [|vm_compute; discriminate].
    constructor; [vm_compute; discriminate|]. change (hm_get_all (rq_headers other_req) $"accept") with [$"text/html"; $"text/plain"].
    repeat constructor; now apply stripped_check.
  - exists $"http://example.com:8080/a". split; [|vm_compute; discriminate].
    apply (dv_target_uri _ (rq_url other_req) _ $"example.com:8080" []); [exact other_port|reflexivity].
  - exists $"example.com:8080". split; [|vm_compute; discriminate]. constructor. exact other_port.
  - exists $"/a". split; [|vm_compute; discriminate]. apply (dv_request_target _ (rq_url other_req) _ []). reflexivity.
  - exists $"?". split; [|vm_compute; discriminate]. now apply dv_no_query.
Qed.
