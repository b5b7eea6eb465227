(** Proofs about the parts of a request (for PropReq.v). *)
From Verif Require Export SpecLine QueryFacts VerifyFacts ReqFacts.

(** ** Deriving *)
Lemma derive_named (n : str) (p : params) (host : option str) (m : str) (u : url) :
  dc_derive (Derived (Item (BString n) p)) host m u = Done (
    if str_eqb n AT_METHOD then Some m
    else if str_eqb n AT_REQUEST_TARGET then Some (url_to_string u)
    else if str_eqb n AT_TARGET_URI then Some (url_to_string u)
    else if str_eqb n AT_AUTHORITY then host
    else if str_eqb n AT_SCHEME then Some (u_scheme u)
    else if str_eqb n AT_PATH then Some (u_path u)
    else if str_eqb n AT_QUERY then option_map (fun q => "?"%char :: q) (u_query u)
    else if str_eqb n AT_QUERY_PARAMS then derive_query_params (Derived (Item (BString n) p)) u
    else None).
Proof. reflexivity. Qed.

Lemma url_text_iff (u : url) (t : str) : url_text u t <-> t = url_to_string u.
Proof.
  assert (P : forall c o t', prefixed c o t' <-> t' = opt_str [c] o) by (intros c [s|] t'; reflexivity).
  assert (Q : forall t', port_text (u_port u) t' <-> t' = match u_port u with Some p => $":" ++ dec_of_N p | None => [] end).
  { intro t'. unfold port_text. destruct (u_port u) as [n|]; [|reflexivity]. split.
    - intros (ds & D & ->). apply digits_iff in D. now subst ds.
    - intros ->. exists (dec_of_N n). split; [now apply digits_iff|reflexivity]. }
  assert (U : forall t', userinfo_text (u_username u) (u_password u) t' <-> t' = url_userinfo u).
  { intro t'. unfold url_userinfo. destruct (u_username u) as [|x n], (u_password u) as [w|]; split.
    - inversion 1; reflexivity.
    - intros ->. exact (user_password [] w).
    - inversion 1; [reflexivity|contradiction].
    - intros ->. constructor.
    - inversion 1; subst. cbn [opt_str]. reflexivity.
    - intros ->. exact (user_password (x :: n) w).
    - inversion 1; reflexivity.
    - intros ->. constructor. discriminate. }
  assert (A : forall t', authority_text u t' <-> t' =
    if u_has_authority u
      then $"//" ++ url_userinfo u ++ opt_str [] (u_host u)
           ++ match u_port u with Some p => $":" ++ dec_of_N p | None => [] end
      else if starts_with $"//" (u_path u) then $"/." else []).
  { intro t'. unfold authority_text. destruct (u_has_authority u); [|].
    2:{ destruct (starts_with $"//" (u_path u)) eqn:S.
        - apply starts_with_spec in S. split; [intros [(_ & E)|(N & _)]; [exact E|destruct S as [p S]; now destruct (N p)]|]. intros ->. now left.
        - split; [intros [((p & E) & _)|(_ & E)]; [rewrite E in S; discriminate S|exact E]|]. intros ->. right. split; [|reflexivity]. intros p E. rewrite E in S. discriminate S. }
    split.
    - intros (a & h & p & Ha & Hh & Hp & ->). apply U in Ha. apply Q in Hp. subst a p. destruct (u_host u); now subst h.
    - intros ->. eexists _, _, _. split; [apply U; reflexivity|]. split; [|split; [apply Q; reflexivity|reflexivity]].
      now destruct (u_host u). }
  unfold url_text, url_to_string. split.
  - intros (a & q & f & Ha & Hq & Hf & ->). apply A in Ha. apply P in Hq. apply P in Hf. now subst a q f.
  - intros ->. eexists _, _, _. split; [apply A; reflexivity|]. split; [apply P; reflexivity|]. split; [apply P; reflexivity|reflexivity].
Qed.

(** The two request types derive from their method and URL alike, except [@authority]. *)
Lemma line_derive (p : params) (host : option str) (m : str) (u : url) :
  let d n := dc_derive (Derived (Item (BString n) p)) host m u in
  d $"@method" = Done (Some m)
  /\ d $"@scheme" = Done (Some (u_scheme u))
  /\ d $"@path" = Done (Some (u_path u))
  /\ d $"@query" = Done (match u_query u with None => None | Some q => Some ("?"%char :: q) end)
  /\ (forall t, d $"@target-uri" = Done (Some t) <-> url_text u t)
  /\ (forall t, d $"@request-target" = Done (Some t) <-> url_text u t)
  /\ (forall n, ~ In n [$"@method"; $"@scheme"; $"@path"; $"@query"; $"@target-uri"; $"@request-target"; $"@authority"; $"@query-params"] ->
        d n = Done None).
Proof.
  cbv zeta. do 4 (split; [reflexivity|]). split; [|split].
  - intro t. rewrite url_text_iff.
    change (dc_derive (Derived (Item (BString $"@target-uri") p)) host m u) with (Done (Some (url_to_string u))). split; congruence.
  - intro t. rewrite url_text_iff.
    change (dc_derive (Derived (Item (BString $"@request-target") p)) host m u) with (Done (Some (url_to_string u))). split; congruence.
  - intros n N. rewrite derive_named. f_equal.
    assert (E : forall x, In x [$"@method"; $"@scheme"; $"@path"; $"@query"; $"@target-uri"; $"@request-target"; $"@authority"; $"@query-params"] ->
              str_eqb n x = false).
    { intros x Hx. apply str_eqb_neq. intros ->. now apply N. }
    unfold AT_METHOD, AT_REQUEST_TARGET, AT_TARGET_URI, AT_AUTHORITY, AT_SCHEME, AT_PATH, AT_QUERY, AT_QUERY_PARAMS.
    rewrite !E by (cbn [In]; tauto). reflexivity.
Qed.
Lemma no_name_param (p : params) (host : option str) (m : str) (u : url) :
  (forall n, imap_get p $"name" <> Some (BString n)) ->
  dc_derive (Derived (Item (BString $"@query-params") p)) host m u = Done None.
Proof.
  intro H. change (Done (derive_query_params (Derived (Item (BString $"@query-params") p)) u) = Done None).
  unfold derive_query_params, dc_param. cbn [dc_item it_params]. destruct (imap_get p $"name") as [b|] eqn:E; [|reflexivity].
  destruct b; try reflexivity. exfalso. exact (H s eq_refl).
Qed.
Lemma value_of_imap {A} (p : list (str * A)) (k : str) : value_of k p = imap_get p k.
Proof.
  induction p as [|[a v] p IH]; [reflexivity|]. cbn [value_of imap_get]. destruct (list_eq_dec ascii_dec a k) as [->|N].
  - now rewrite str_eqb_refl.
  - apply str_eqb_neq in N. now rewrite N.
Qed.
Lemma query_params_derive (n : str) (p : params) (host : option str) (m : str) (u : url) (ps : list (str * str)) :
  query_params (url_query u) ps -> value_of $"name" p = Some (BString n) ->
  dc_derive (Derived (Item (BString $"@query-params") p)) host m u = Done (Some (lines (values_named n ps))).
Proof.
  intros Q E. rewrite value_of_imap in E.
  change (Done (derive_query_params (Derived (Item (BString $"@query-params") p)) u) = Done (Some (lines (values_named n ps)))).
  now rewrite (derive_params_of n p u ps).
Qed.
Lemma query_params_none (p : params) (host : option str) (m : str) (u : url) :
  (forall n, value_of $"name" p <> Some (BString n)) ->
  dc_derive (Derived (Item (BString $"@query-params") p)) host m u = Done None.
Proof. intro H. apply no_name_param. intro n. rewrite <- value_of_imap. apply H. Qed.

(** ** C05 *)
Lemma no_lf_split (l : list str) : Forall no_lf l -> l <> [] -> split ch_lf (lines l) = l.
Proof. intros F N. rewrite lines_join. apply split_join; [exact N|]. intros x Hx. rewrite Forall_forall in F. now apply F. Qed.
Lemma lines_inj (l m : list str) : Forall no_lf l -> Forall no_lf m -> lines l = lines m ->
  l = m \/ l = [] /\ m = [[]] \/ l = [[]] /\ m = [].
Proof.
  intros L M E. destruct l as [|a l].
  - cbn [lines] in E. destruct m as [|b m]; [now left|]. right. left. split; [reflexivity|].
    rewrite <- (no_lf_split (b :: m)), <- E by (assumption || discriminate). reflexivity.
  - destruct m as [|b m].
    + right. right. split; [|reflexivity]. rewrite <- (no_lf_split (a :: l)), E by (assumption || discriminate). reflexivity.
    + left. rewrite <- (no_lf_split (a :: l)), E, no_lf_split by (assumption || discriminate). reflexivity.
Qed.
Lemma query_params_bound {R S} (rl : request_like R) (sl : request_like S) (r : R) (s : S) (u v : url)
    (c : canon_config) (base : str) (si1 si2 : signature_input) (pre post : list component) (n : str) (ps qs : list (str * str)) :
  rl_derive rl r (query_params_of n) = Done (Some (lines (values_named n ps))) ->
  rl_derive sl s (query_params_of n) = Done (Some (lines (values_named n qs))) ->
  cc_components c = pre ++ query_params_of n :: post ->
  canonicalize rl r c = Done (Ok (base, si1)) -> canonicalize sl s c = Done (Ok (base, si2)) ->
  (forall x t, In x (pre ++ post) -> rl_derive rl r x = Done (Some t) -> no_lf t) ->
  (forall x t, In x (pre ++ post) -> rl_derive sl s x = Done (Some t) -> no_lf t) ->
  lines (values_named n ps) = lines (values_named n qs)
  /\ (Forall no_lf (values_named n ps) -> Forall no_lf (values_named n qs) ->
      values_named n ps = values_named n qs
      \/ values_named n ps = [] /\ values_named n qs = [[]] \/ values_named n ps = [[]] /\ values_named n qs = []).
Proof.
  intros D1 D2 E H1 H2 L1 L2.
  destruct (base_binds_one rl sl r s c base si1 si2 pre post (query_params_of n) E H1 H2 L1 L2 (query_params_of n)) as (t & T1 & T2).
  { rewrite E. apply in_or_app. right. now left. }
  assert (X : lines (values_named n ps) = lines (values_named n qs)) by congruence.
  split; [exact X|]. intros F1 F2. now apply lines_inj.
Qed.
Lemma rq_params_bound (r s : rq) (c : canon_config) (base : str) (si1 si2 : signature_input) (pre post : list component)
    (n : str) (ps qs : list (str * str)) :
  query_params (url_query (rq_url r)) ps -> query_params (url_query (rq_url s)) qs ->
  cc_components c = pre ++ query_params_of n :: post ->
  canonicalize rq_rl r c = Done (Ok (base, si1)) -> canonicalize rq_rl s c = Done (Ok (base, si2)) ->
  (forall x t, In x (pre ++ post) -> rl_derive rq_rl r x = Done (Some t) -> no_lf t) ->
  (forall x t, In x (pre ++ post) -> rl_derive rq_rl s x = Done (Some t) -> no_lf t) ->
  Forall no_lf (values_named n ps) -> Forall no_lf (values_named n qs) ->
  values_named n ps = values_named n qs
  \/ values_named n ps = [] /\ values_named n qs = [[]] \/ values_named n ps = [[]] /\ values_named n qs = [].
Proof.
  intros Q1 Q2 E H1 H2 L1 L2 F1 F2.
  eapply (query_params_bound rq_rl rq_rl r s); try eassumption; try (apply (rq_url r)).
  - now apply (rq_query_params r n ps). - now apply (rq_query_params s n qs).
Qed.
Lemma mock_params_bound (r s : mock) (c : canon_config) (base : str) (si1 si2 : signature_input) (pre post : list component)
    (n : str) (ps qs : list (str * str)) :
  query_params (url_query (mr_url r)) ps -> query_params (url_query (mr_url s)) qs ->
  cc_components c = pre ++ query_params_of n :: post ->
  canonicalize mr_rl r c = Done (Ok (base, si1)) -> canonicalize mr_rl s c = Done (Ok (base, si2)) ->
  (forall x t, In x (pre ++ post) -> rl_derive mr_rl r x = Done (Some t) -> no_lf t) ->
  (forall x t, In x (pre ++ post) -> rl_derive mr_rl s x = Done (Some t) -> no_lf t) ->
  Forall no_lf (values_named n ps) -> Forall no_lf (values_named n qs) ->
  values_named n ps = values_named n qs
  \/ values_named n ps = [] /\ values_named n qs = [[]] \/ values_named n ps = [[]] /\ values_named n qs = [].
Proof.
  intros Q1 Q2 E H1 H2 L1 L2 F1 F2.
  eapply (query_params_bound mr_rl mr_rl r s); try eassumption; try (apply (mr_url r)).
  - now apply (mock_query_params r n ps). - now apply (mock_query_params s n qs).
Qed.

(** ** Line feeds in derived values *)
Lemma opt_str_no_lf (pre : str) (o : option str) : no_lf pre -> no_lf_opt o -> no_lf (opt_str pre o).
Proof. intros P O. destruct o as [s|]; cbn [opt_str]; [|intros []]. intro I. apply in_app_or in I. destruct I; [now apply P|now apply O]. Qed.
Lemma no_lf_app (a b : str) : no_lf a -> no_lf b -> no_lf (a ++ b).
Proof. intros A B I. apply in_app_or in I. destruct I; [now apply A|now apply B]. Qed.
Lemma no_lf_lit (s : str) : existsb (Ascii.eqb ch_lf) s = false -> no_lf s.
Proof.
  intros H I. assert (E : existsb (Ascii.eqb ch_lf) s = true); [|congruence].
  apply existsb_exists. exists ch_lf. split; [exact I|apply Ascii.eqb_refl].
Qed.
Lemma dec_no_lf (n : N) : no_lf (dec_of_N n).
Proof.
  intro I. pose proof (dec_of_N_digits n) as D. apply (forallb_In _ _ _ D) in I. discriminate.
Qed.
Lemma url_no_lf (m : str) (u : url) : line_request m u -> no_lf (url_to_string u).
Proof.
  intros (_ & S & N & P & H & Pa & Q & F). unfold url_to_string.
  apply no_lf_app; [exact S|]. apply no_lf_app; [now apply no_lf_lit|]. apply no_lf_app.
  { destruct (u_has_authority u); [|destruct (starts_with _ _); [now apply no_lf_lit|intros []]].
    apply no_lf_app; [now apply no_lf_lit|]. apply no_lf_app.
    - unfold url_userinfo. assert (X : no_lf (u_username u ++ opt_str $":" (u_password u) ++ $"@")).
      { apply no_lf_app; [exact N|]. apply no_lf_app; [apply opt_str_no_lf; [now apply no_lf_lit|exact P]|now apply no_lf_lit]. }
      destruct (u_username u), (u_password u); try exact X. intros [].
    - apply no_lf_app; [apply opt_str_no_lf; [intros []|exact H]|]. destruct (u_port u) as [n|]; [|intros []].
      apply no_lf_app; [now apply no_lf_lit|apply dec_no_lf]. }
  apply no_lf_app; [exact Pa|]. apply no_lf_app; apply opt_str_no_lf; try assumption; now apply no_lf_lit.
Qed.
Lemma derive_no_lf (d : derived) (host : option str) (m : str) (u : url) (t : str) :
  line_request m u -> no_lf_opt host -> ~ is_query_params (CDerived d) ->
  dc_derive d host m u = Done (Some t) -> no_lf t.
Proof.
  intros L H N D. pose proof L as (Lm & S & _ & _ & _ & Pa & Q & _). unfold dc_derive, dc_name in D.
  destruct (as_str (it_bare (dc_item d))) as [n|] eqn:E; cbn [unwrap obind] in D; [|discriminate].
  assert (X : str_eqb n AT_QUERY_PARAMS = false).
  { apply str_eqb_neq. intros ->. apply N. destruct d as [[b p]]. cbn [dc_item it_bare] in E. destruct b; try discriminate.
    injection E as ->. now exists p. }
  rewrite X in D. pose proof (url_no_lf m u L) as U.
  repeat match type of D with context [if ?b then _ else _] => destruct b end; try (injection D as <-; assumption); try discriminate.
  - destruct host as [h|]; [|discriminate]. injection D as <-. exact H.
  - destruct (u_query u) as [q|]; [|discriminate]. injection D as <-.
    intros [I|I]; [discriminate|now apply Q].
Qed.
Lemma plain_no_lf (v : str) : plain v -> no_lf v.
Proof.
  intros P I. unfold plain in P. rewrite Forall_forall in P. apply P in I. destruct I as [I|I]; [|discriminate].
  unfold visible in I. cbv in I. destruct I as [I _]. now apply I.
Qed.
Lemma to_str_plain (v t : str) : hvalue_to_str v = Some t <-> t = v /\ plain v.
Proof.
  unfold hvalue_to_str. rewrite plain_iff. destruct (hvalue_visible v); split; try discriminate; try intuition congruence.
Qed.
Lemma first_value_get (m : header_map) (h : str) : first_value m h = hm_get m h.
Proof.
  unfold first_value, hm_get_all. induction m as [|[a w] m IH]; [reflexivity|]. cbn [filter hm_get fst].
  destruct (str_eqb a h); cbn [map snd]; [reflexivity|exact IH].
Qed.

(** ** C37, C39 *)
Lemma rq_header_derive (r : rq) (h t : str) : rq_derive r (CHeader h) = Done (Some t) <-> first_value (rq_headers r) h = Some t /\ plain t.
Proof.
  cbn [rq_derive]. rewrite first_value_get. destruct (hm_get (rq_headers r) h) as [v|]; cbn [opt_bind].
  - destruct (hvalue_to_str v) as [w|] eqn:E.
    + apply to_str_plain in E. destruct E as [-> P]. split; [intro X; injection X as <-; auto|intros [X _]; congruence].
    + split; [discriminate|]. intros [X P]. injection X as ->.
      assert (Y : hvalue_to_str t = Some t) by now apply to_str_plain. congruence.
  - split; [discriminate|]. intros [X _]. discriminate.
Qed.
Lemma mr_header_derive (r : mock) (h t : str) : mr_derive r (CHeader h) = Done (Some t) <->
  first_value (mr_headers r) h = Some t /\ plain t \/ t = [] /\ exists v, first_value (mr_headers r) h = Some v /\ ~ plain v.
Proof.
  cbn [mr_derive]. rewrite first_value_get. destruct (hm_get (mr_headers r) h) as [v|]; cbn [option_map].
  - destruct (hvalue_to_str v) as [w|] eqn:E.
    + apply to_str_plain in E. destruct E as [-> P]. split.
      * intro X. injection X as <-. auto.
      * intros [[X _]|(-> & v' & X & N)]; [congruence|]. injection X as <-. contradiction.
    + assert (N : ~ plain v). { intro P. assert (Y : hvalue_to_str v = Some v) by now apply to_str_plain. congruence. }
      split.
      * intro X. injection X as <-. right. split; [reflexivity|]. exists v. auto.
      * intros [[X P]|(-> & _)]; [|reflexivity]. injection X as ->. contradiction.
  - split; [discriminate|]. intros [[X _]|(_ & v & X & _)]; discriminate.
Qed.
Lemma rq_no_lf (r : rq) (c : component) (t : str) : line_request (rq_method r) (rq_url r) -> ~ is_query_params c ->
  rq_derive r c = Done (Some t) -> no_lf t.
Proof.
  intros L N D. destruct c as [d|h].
  - cbn [rq_derive] in D. eapply derive_no_lf; try eassumption. apply L.
  - apply rq_header_derive in D. now apply plain_no_lf.
Qed.
Lemma mr_no_lf (r : mock) (c : component) (t : str) : line_request (mr_method r) (mr_url r) -> ~ is_query_params c ->
  mr_derive r c = Done (Some t) -> no_lf t.
Proof.
  intros L N D. destruct c as [d|h].
  - cbn [mr_derive] in D. eapply derive_no_lf; try eassumption. exact I.
  - apply mr_header_derive in D. destruct D as [[_ P]|[-> _]]; [now apply plain_no_lf|intros []].
Qed.
Lemma lf_count_zero (t : str) : no_lf t -> lf_count t = 0%nat.
Proof. intro H. unfold lf_count. now apply count_occ_not_In. Qed.
Lemma rq_headers_bound (r s : rq) (c : canon_config) (base : str) (si1 si2 : signature_input) :
  line_request (rq_method r) (rq_url r) -> line_request (rq_method s) (rq_url s) ->
  (forall x, In x (cc_components c) -> ~ is_query_params x) ->
  canonicalize rq_rl r c = Done (Ok (base, si1)) -> canonicalize rq_rl s c = Done (Ok (base, si2)) ->
  forall h, In (CHeader h) (cc_components c) ->
  exists v, first_value (rq_headers r) h = Some v /\ first_value (rq_headers s) h = Some v.
Proof.
  intros L1 L2 N H1 H2 h I.
  destruct (base_binds_values_same rq_rl rq_rl r s c base si1 si2 H1 H2) with (x := CHeader h) as (v & V1 & V2); [|exact I|].
  - intros x a b Ix A B. rewrite !lf_count_zero; [reflexivity|..].
    + eapply rq_no_lf; [exact L2|exact (N x Ix)|exact B]. + eapply rq_no_lf; [exact L1|exact (N x Ix)|exact A].
  - apply rq_header_derive in V1. apply rq_header_derive in V2. exists v. tauto.
Qed.
Lemma mr_headers_bound (r s : mock) (c : canon_config) (base : str) (si1 si2 : signature_input) :
  line_request (mr_method r) (mr_url r) -> line_request (mr_method s) (mr_url s) ->
  (forall x, In x (cc_components c) -> ~ is_query_params x) ->
  canonicalize mr_rl r c = Done (Ok (base, si1)) -> canonicalize mr_rl s c = Done (Ok (base, si2)) ->
  forall h v w, In (CHeader h) (cc_components c) ->
  first_value (mr_headers r) h = Some v -> first_value (mr_headers s) h = Some w ->
  v = w \/ (~ plain v \/ v = []) /\ (~ plain w \/ w = []).
Proof.
  intros L1 L2 N H1 H2 h v w I Fv Fw.
  destruct (base_binds_values_same mr_rl mr_rl r s c base si1 si2 H1 H2) with (x := CHeader h) as (t & V1 & V2); [|exact I|].
  - intros x a b Ix A B. rewrite !lf_count_zero; [reflexivity|..].
    + eapply mr_no_lf; [exact L2|exact (N x Ix)|exact B]. + eapply mr_no_lf; [exact L1|exact (N x Ix)|exact A].
  - apply mr_header_derive in V1. apply mr_header_derive in V2.
    destruct V1 as [[A P]|(-> & v' & A & P)], V2 as [[B P']|(E & w' & B & P')].
    + left. congruence.
    + right. subst t. assert (w' = w) by congruence. assert (v = []) by congruence. subst. tauto.
    + right. assert (v' = v) by congruence. assert (w = []) by congruence. subst. tauto.
    + right. assert (v' = v) by congruence. assert (w' = w) by congruence. subst. tauto.
Qed.
Lemma rq_first_values (r s : rq) (c : canon_config) :
  rq_method r = rq_method s -> rq_url r = rq_url s ->
  (forall h, In (CHeader h) (cc_components c) -> first_value (rq_headers r) h = first_value (rq_headers s) h) ->
  canonicalize rq_rl r c = canonicalize rq_rl s c.
Proof.
  intros M U H. apply canonicalize_ext. intros [d|h] I; cbn [rq_rl rl_derive rq_derive].
  - unfold rq_host. now rewrite M, U.
  - rewrite <- !first_value_get. now rewrite (H h I).
Qed.
Lemma mr_first_values (r s : mock) (c : canon_config) :
  mr_method r = mr_method s -> mr_url r = mr_url s ->
  (forall h, In (CHeader h) (cc_components c) -> first_value (mr_headers r) h = first_value (mr_headers s) h) ->
  canonicalize mr_rl r c = canonicalize mr_rl s c.
Proof.
  intros M U H. apply canonicalize_ext. intros [d|h] I; cbn [mr_rl rl_derive mr_derive].
  - unfold mr_host. now rewrite M, U.
  - rewrite <- !first_value_get. now rewrite (H h I).
Qed.

(** ** C31 *)
Lemma spelled_iff (n h : str) : spelled n h <-> hname_parse n = Some h.
Proof. symmetry. apply field_name_iff. Qed.
Lemma spelled_component (n h : str) : spelled n h -> comp_from_str n = Ok (CHeader h).
Proof.
  intro S. apply spelled_iff in S. unfold comp_from_str. rewrite S.
  unfold hname_parse in S. destruct n as [|x n]; [discriminate|].
  destruct (_ && forallb is_tchar (x :: n)) eqn:E; [|discriminate]. apply andb_prop in E. destruct E as [_ E].
  cbn [forallb] in E. apply andb_prop in E. destruct E as [E _].
  assert (X : starts_with $"@" (x :: n) || starts_with [ch_quote] (x :: n) = false); [|now rewrite X].
  assert (Y : forallb (fun x => implb (is_tchar x) (negb (starts_with $"@" [x] || starts_with [ch_quote] [x]))) all_bytes = true)
    by (vm_compute; reflexivity).
  apply byte_all with (c := x) in Y. cbv beta in Y. rewrite E in Y. cbn [implb] in Y. apply negb_true_iff in Y.
  exact Y.
Qed.
Lemma same_name_iff (a b : str) : same_name a b <-> map to_lower a = map to_lower b.
Proof.
  unfold same_name. split.
  - intros (h & A & B). apply Forall2_lower in A. apply Forall2_lower in B. congruence.
  - intro E. exists (map to_lower a). split; now apply Forall2_lower.
Qed.
Lemma spelled_lower (n h : str) : spelled n h -> h = map to_lower n.
Proof. intros [_ H]. now apply Forall2_lower. Qed.
Section Writes.
  Context {R : Type} (cr : client_request_like R) (L : client_laws cr).
  Lemma wrote_derived (r r' : R) (ws : list (str * str)) (d : derived) : wrote cr r ws r' ->
    rl_derive (cr_rl cr) r' (CDerived d) = rl_derive (cr_rl cr) r (CDerived d).
  Proof. induction 1 as [|r n h v ws r' _ _ IH]; [reflexivity|]. rewrite IH. apply (cl_set_other _ L). discriminate. Qed.
  Lemma wrote_other (r r' : R) (ws : list (str * str)) (n h : str) : wrote cr r ws r' -> spelled n h -> not_written ws n ->
    rl_derive (cr_rl cr) r' (CHeader h) = rl_derive (cr_rl cr) r (CHeader h).
  Proof.
    intros W S N. induction W as [|r n0 h0 v ws r' S0 _ IH]; [reflexivity|]. inversion N as [|? ? N1 N2]; subst.
    rewrite IH by exact N2. apply (cl_set_other _ L). intro E. injection E as E. apply N1. cbn [fst]. apply same_name_iff.
    apply spelled_lower in S. apply spelled_lower in S0. congruence.
  Qed.
  Lemma wrote_last (r r' : R) (ws : list (str * str)) (n h v : str) : wrote cr r ws r' -> spelled n h -> last_written ws n v -> plain v ->
    rl_derive (cr_rl cr) r' (CHeader h) = Done (Some v).
  Proof.
    intros W S (before & n0 & after & -> & E & N) P. revert r W. induction before as [|[n1 v1] before IH]; intros r W; cbn [app] in W.
    - inversion W as [|? ? h0 ? ? ? S0 W']; subst. rewrite (wrote_other _ _ _ n h W' S N).
      assert (h0 = h) as ->; [|now apply (cl_set _ L)].
      apply same_name_iff in E. apply spelled_lower in S. apply spelled_lower in S0. congruence.
    - inversion W as [|? ? h0 ? ? ? S0 W']; subst. exact (IH _ W').
  Qed.
End Writes.
Lemma header_history {R} (cr : client_request_like R) : client_laws cr -> forall (r r' : R) (ws : list (str * str)), wrote cr r ws r' ->
  (forall d, rl_derive (cr_rl cr) r' (CDerived d) = rl_derive (cr_rl cr) r (CDerived d))
  /\ forall n h, spelled n h -> comp_from_str n = Ok (CHeader h)
     /\ (forall v, last_written ws n v -> plain v -> rl_derive (cr_rl cr) r' (CHeader h) = Done (Some v))
     /\ (not_written ws n -> rl_derive (cr_rl cr) r' (CHeader h) = rl_derive (cr_rl cr) r (CHeader h)).
Proof.
  intros L r r' ws W. split; [intro d; now apply (wrote_derived cr L r r' ws)|]. intros n h S. split; [now apply spelled_component|]. split.
  - intros v. now apply (wrote_last cr L r r' ws). - now apply (wrote_other cr L r r' ws).
Qed.
Lemma with_header_iff (r : mock) (n v : str) (r' : mock) :
  mr_with_header r n v = Done r' <-> exists h, spelled n h /\ legal_value v /\ r' = mr_set_header r h v.
Proof.
  unfold mr_with_header. split.
  - destruct (hname_parse n) as [h|] eqn:E; [|discriminate]. cbn [unwrap obind]. unfold hvalue_parse.
    destruct (hvalue_ok v) eqn:V; [|discriminate]. cbn [unwrap obind]. intro X. injection X as <-.
    exists h. split; [now apply spelled_iff|]. split; [now apply legal_iff|reflexivity].
  - intros (h & S & V & ->). apply spelled_iff in S. apply legal_iff in V. rewrite S. unfold hvalue_parse. rewrite V. reflexivity.
Qed.
Lemma with_header_panic (r : mock) (n v : str) : mr_with_header r n v = Panic <-> ~ (field_name n /\ legal_value v).
Proof.
  destruct (mr_with_header r n v) as [r'|] eqn:E.
  - split; [discriminate|]. intro X. exfalso. apply with_header_iff in E. destruct E as (h & [F _] & V & _). now apply X.
  - split; [|reflexivity]. intros _ [F V].
    assert (X : mr_with_header r n v = Done (mr_set_header r (map to_lower n) v)); [|congruence].
    apply with_header_iff. exists (map to_lower n). split; [split; [exact F|now apply Forall2_lower]|]. auto.
Qed.

(** ** C35, C36 *)
Lemma url_longer (u : url) (q : str) : prefixed "?" (u_query u) q -> url_to_string u <> u_path u ++ q.
Proof.
  intros Q E. apply (f_equal (@List.length ascii)) in E. unfold url_to_string in E. rewrite !app_length in E.
  assert (Lq : List.length q = List.length (opt_str $"?" (u_query u))) by (unfold prefixed in Q; destruct (u_query u); subst q; reflexivity).
  change (List.length $":") with 1%nat in E. lia.
Qed.
Lemma origin_form_never (r : rq) (m : mock) (p : params) :
  (forall q t, prefixed "?" (u_query (rq_url r)) q -> rq_derive r (derived_named $"@request-target" p) = Done (Some t) -> t <> u_path (rq_url r) ++ q)
  /\ (forall q t, prefixed "?" (u_query (mr_url m)) q -> mr_derive m (derived_named $"@request-target" p) = Done (Some t) -> t <> u_path (mr_url m) ++ q).
Proof.
  split; intros q t Q D; [|].
  - assert (E : Done (Some t) = Done (Some (url_to_string (rq_url r)))) by (rewrite <- D; reflexivity).
    injection E as ->. now apply url_longer.
  - assert (E : Done (Some t) = Done (Some (url_to_string (mr_url m)))) by (rewrite <- D; reflexivity).
    injection E as ->. now apply url_longer.
Qed.
Lemma rq_line (r : rq) (p : params) :
  let d n := rq_derive r (derived_named n p) in let u := rq_url r in
  d $"@method" = Done (Some (rq_method r))
  /\ d $"@scheme" = Done (Some (u_scheme u))
  /\ d $"@path" = Done (Some (u_path u))
  /\ d $"@query" = Done (match u_query u with None => None | Some q => Some ("?"%char :: q) end)
  /\ (forall t, d $"@target-uri" = Done (Some t) <-> url_text u t)
  /\ (forall t, d $"@request-target" = Done (Some t) <-> url_text u t)
  /\ (forall n, ~ In n [$"@method"; $"@scheme"; $"@path"; $"@query"; $"@target-uri"; $"@request-target"; $"@authority"; $"@query-params"] ->
        d n = Done None).
Proof. exact (line_derive p (rq_host r) (rq_method r) (rq_url r)). Qed.
Lemma mr_line (r : mock) (p : params) :
  let d n := mr_derive r (derived_named n p) in let u := mr_url r in
  d $"@method" = Done (Some (mr_method r))
  /\ d $"@scheme" = Done (Some (u_scheme u))
  /\ d $"@path" = Done (Some (u_path u))
  /\ d $"@query" = Done (match u_query u with None => None | Some q => Some ("?"%char :: q) end)
  /\ (forall t, d $"@target-uri" = Done (Some t) <-> url_text u t)
  /\ (forall t, d $"@request-target" = Done (Some t) <-> url_text u t)
  /\ (forall n, ~ In n [$"@method"; $"@scheme"; $"@path"; $"@query"; $"@target-uri"; $"@request-target"; $"@authority"; $"@query-params"] ->
        d n = Done None).
Proof. exact (line_derive p (mr_host r) (mr_method r) (mr_url r)). Qed.
Lemma url_text_exists (u : url) : exists t, url_text u t /\ forall t', url_text u t' -> t' = t.
Proof. exists (url_to_string u). split; [now apply url_text_iff|]. intros t' H. now apply url_text_iff in H. Qed.
Lemma rq_authority (r : rq) (p : params) : rq_derive r (derived_named $"@authority" p) = Done (u_host (rq_url r)).
Proof. reflexivity. Qed.
Lemma mr_authority (r : mock) (p : params) : mr_derive r (derived_named $"@authority" p) = Done None.
Proof. reflexivity. Qed.
Lemma rq_authority_bound (r s : rq) (p q : params) (v w : str) :
  rq_derive r (derived_named $"@authority" p) = Done (Some v) -> rq_derive s (derived_named $"@authority" q) = Done (Some w) ->
  (u_host (rq_url r) <> u_host (rq_url s) <-> v <> w).
Proof. rewrite !rq_authority. intros H1 H2. assert (E1 : u_host (rq_url r) = Some v) by congruence.
  assert (E2 : u_host (rq_url s) = Some w) by congruence. rewrite E1, E2. split; congruence. Qed.
Lemma rq_query (r : rq) (p : params) (ps : list (str * str)) : query_params (url_query (rq_url r)) ps ->
  (forall n, value_of $"name" p = Some (BString n) ->
     rq_derive r (derived_named $"@query-params" p) = Done (Some (lines (values_named n ps))))
  /\ ((forall n, value_of $"name" p <> Some (BString n)) -> rq_derive r (derived_named $"@query-params" p) = Done None).
Proof.
  intro Q. split.
  - intros n E. exact (query_params_derive n p (rq_host r) (rq_method r) (rq_url r) ps Q E).
  - intro H. exact (query_params_none p (rq_host r) (rq_method r) (rq_url r) H).
Qed.
Lemma mr_query (r : mock) (p : params) (ps : list (str * str)) : query_params (url_query (mr_url r)) ps ->
  (forall n, value_of $"name" p = Some (BString n) ->
     mr_derive r (derived_named $"@query-params" p) = Done (Some (lines (values_named n ps))))
  /\ ((forall n, value_of $"name" p <> Some (BString n)) -> mr_derive r (derived_named $"@query-params" p) = Done None).
Proof.
  intro Q. split.
  - intros n E. exact (query_params_derive n p (mr_host r) (mr_method r) (mr_url r) ps Q E).
  - intro H. exact (query_params_none p (mr_host r) (mr_method r) (mr_url r) H).
Qed.
Lemma rq_opaque_missing (r : rq) (h v : str) : first_value (rq_headers r) h = Some v -> ~ plain v -> rq_derive r (CHeader h) = Done None.
Proof.
  intros F N. rewrite first_value_get in F. cbn [rq_derive]. rewrite F. cbn [opt_bind].
  destruct (hvalue_to_str v) as [t|] eqn:E; [|reflexivity]. apply to_str_plain in E. tauto.
Qed.
