(** What the URL parser makes of the targets of requests (C75, C76). *)
From Verif Require Export UrlNormal MockFacts.
From Verif Require Import LineFacts RoundTrip ReqFacts SignMore SpecMore GrowFacts.

Lemma plain_special (hp : host_parser) (v host : str) (port : option N) (t p q f : str) : plain_host hp v host port -> target_parts t p q f ->
  exists u, special_url hp ($"http:" ++ $"//" ++ v ++ t) u /\ u_scheme u = $"http" /\ u_has_authority u = true /\ u_username u = [] /\ u_password u = None
    /\ u_host u = Some host /\ u_port u = port /\ path_of p (u_path u)
    /\ tail_of "?" query_set (u_query u) q /\ tail_of "#" fragment_set (u_fragment u) f.
Proof.
  intros (h & pt & -> & Ht & Hc & Hh & Hp) (-> & Fp & Hq & Nq & Hf & Nl).
  set (u := Url $"http" true [] None (Some host) port (path_loop [] (split_slash p))
              (match q with [] => None | _ :: x => Some (percent_encode enc_query x) end)
              (match f with [] => None | _ :: x => Some (percent_encode enc_fragment x) end)).
  assert (Tq : tail_of "?" query_set (u_query u) q).
  { destruct Hq as [-> | (x & ->)]; cbn [u_query u tail_of]; [reflexivity|]. exists x. split; [reflexivity|]. now apply (encoded_iff _ _ query_ok). }
  assert (Tf : tail_of "#" fragment_set (u_fragment u) f).
  { destruct Hf as [-> | (x & ->)]; cbn [u_fragment u tail_of]; [reflexivity|]. exists x. split; [reflexivity|]. now apply (encoded_iff _ _ fragment_ok). }
  assert (Pp : path_of p (u_path u)) by now apply path_of_iff.
  assert (Sp : special $"http") by (exists 80%N; now left).
  destruct (special_shape _ Sp) as (S1 & S2 & _).
  exists u. split; [|repeat (split; [reflexivity|]); auto].
  exists ($"http:" ++ $"//" ++ (h ++ pt) ++ "/"%char :: p ++ q ++ f), $"http", $"//", (h ++ pt), ("/"%char :: p), q, f.
  split; [|split; [|split; [|split; [|split; [|split; [|split; [|split; [|split; [|split; [|split; [|split; [|split]]]]]]]]]]]]; try assumption; try reflexivity.
  - apply plain_input. apply Forall_app. split; [repeat constructor; unfold low; cbn; lia|]. apply Forall_app. split; [repeat constructor; unfold low; cbn; lia|].
    apply Forall_app. split; [|exact Nl]. eapply Forall_impl; [|exact Hc]. unfold low. cbn. lia.
  - repeat constructor.
  - eapply Forall_impl; [|exact Hc]. cbn. intros c (_ & S & O). unfold one_of in O. split; [exact S|]. split; intros ->; apply O; cbn; tauto.
  - apply authority_plain; try assumption; try reflexivity; try discriminate.
    rewrite Forall_forall in Hc. intro I. apply Hc in I. destruct I as (_ & _ & O). apply O. cbn. tauto.
  - constructor; [split; discriminate|exact Fp].
  - right. exists "/"%char, p. split; [reflexivity|]. split; [now left|exact Pp].
Qed.

(** The URL of a request read from text, when the target starts with a slash. *)
Lemma read_target (trace : bool) (hp : host_parser) (sp : scheme_parser) (s : str) (r : mock) (p : str) :
  from_reader trace (url_parse hp sp) s = Done (Some r) -> mr_path r = "/"%char :: p ->
  exists v, first_value (mr_headers r) $"host" = Some v /\ special_url hp ($"http://" ++ v ++ mr_path r) (mr_url r).
Proof.
  intros H E. apply read_accepts in H. destruct H as (_ & _ & [U|(_ & v & F & _ & U)]).
  - rewrite E, slash_relative in U. discriminate.
  - exists v. split; [exact F|]. change ($"http://" ++ v ++ mr_path r) with ($"http:" ++ $"//" ++ v ++ mr_path r) in *. now apply http_text in U.
Qed.
Lemma read_plain (trace : bool) (hp : host_parser) (sp : scheme_parser) (s : str) (r : mock) (v host : str) (port : option N) (p q f : str) :
  from_reader trace (url_parse hp sp) s = Done (Some r) -> first_value (mr_headers r) $"host" = Some v ->
  plain_host hp v host port -> target_parts (mr_path r) p q f ->
  let u := mr_url r in u_scheme u = $"http" /\ u_has_authority u = true /\ u_username u = [] /\ u_password u = None
    /\ u_host u = Some host /\ u_port u = port /\ path_of p (u_path u)
    /\ tail_of "?" query_set (u_query u) q /\ tail_of "#" fragment_set (u_fragment u) f.
Proof.
  intros H F P T. pose proof T as (E & _). destruct (read_target trace hp sp s r _ H E) as (v' & F' & U).
  assert (v' = v) as -> by congruence. destruct (plain_special hp v host port _ p q f P T) as (u & U' & R).
  change ($"http://" ++ v ++ mr_path r) with ($"http:" ++ $"//" ++ v ++ mr_path r) in U.
  rewrite (special_url_fun hp _ _ _ U U'). exact R.
Qed.
Lemma read_path_iff (trace : bool) (hp : host_parser) (sp : scheme_parser) (s : str) (r : mock) (v host : str) (port : option N) (p q f : str) (ps : params) :
  from_reader trace (url_parse hp sp) s = Done (Some r) -> first_value (mr_headers r) $"host" = Some v ->
  plain_host hp v host port -> target_parts (mr_path r) p q f ->
  (mr_derive r (derived_named $"@path" ps) = Done (Some ("/"%char :: p)) <-> normal_target p).
Proof.
  intros H F P T. destruct (read_plain _ _ _ _ _ _ _ _ _ _ _ H F P T) as (_ & _ & _ & _ & _ & _ & Pp & _).
  destruct (mr_line r ps) as (_ & _ & -> & _). rewrite <- as_written_iff. split.
  - intro E. injection E as E. now rewrite E in Pp.
  - intro E. now rewrite (path_of_fun p _ _ Pp E).
Qed.
Lemma encoded_id_iff (f : ascii -> bool) (set : string) (s : str) : set_ok f set -> (forall c, one_of set c -> c <> "%"%char /\ ~ digit c /\ ~ letter c) ->
  (encoded set s s <-> Forall (stays set) s).
Proof. intros K P. split; [apply (encoded_stays set s s P)|apply stays_encoded]. Qed.
Lemma read_query_iff (trace : bool) (hp : host_parser) (sp : scheme_parser) (s : str) (r : mock) (v host : str) (port : option N) (p q f : str) (ps : params) :
  from_reader trace (url_parse hp sp) s = Done (Some r) -> first_value (mr_headers r) $"host" = Some v ->
  plain_host hp v host port -> target_parts (mr_path r) p q f ->
  (mr_derive r (derived_named $"@query" ps) = Done None <-> q = [])
  /\ (forall x, q = "?"%char :: x -> (mr_derive r (derived_named $"@query" ps) = Done (Some q) <-> Forall (stays query_set) x)).
Proof.
  intros H F P T. destruct (read_plain _ _ _ _ _ _ _ _ _ _ _ H F P T) as (_ & _ & _ & _ & _ & _ & _ & Tq & _).
  destruct (mr_line r ps) as (_ & _ & _ & -> & _). cbv zeta. destruct (u_query (mr_url r)) as [e|]; cbn [tail_of] in Tq.
  - destruct Tq as (x & -> & E). split; [split; discriminate|]. intros y Ey. injection Ey as <-. rewrite <- (encoded_id_iff _ _ x query_ok query_plain). split.
    + intro G. injection G as G. now rewrite G in E.
    + intro G. now rewrite (encoded_fun _ _ x _ _ query_ok E G).
  - subst q. split; [split; reflexivity|]. discriminate.
Qed.
Lemma read_as_written (trace : bool) (hp : host_parser) (sp : scheme_parser) (s : str) (r : mock) (v host pt : str) (port : option N) (p q : str) (ps : params) :
  from_reader trace (url_parse hp sp) s = Done (Some r) -> first_value (mr_headers r) $"host" = Some v ->
  plain_host hp v host port -> port_text port pt -> target_parts (mr_path r) p q [] ->
  normal_target p -> (forall x, q = "?"%char :: x -> Forall (stays query_set) x) ->
  mr_derive r (derived_named $"@scheme" ps) = Done (Some $"http")
  /\ mr_derive r (derived_named $"@target-uri" ps) = Done (Some ($"http://" ++ host ++ pt ++ mr_path r)).
Proof.
  intros H F P Pt T N Q. destruct (read_plain _ _ _ _ _ _ _ _ _ _ _ H F P T) as (U1 & U2 & U3 & U4 & U5 & U6 & Pp & Tq & Tf).
  destruct (mr_line r ps) as (_ & -> & _ & _ & E & _). split; [now rewrite U1|]. apply E.
  destruct T as (-> & _). exists ($"//" ++ host ++ pt), q, []. split; [|split; [|split]].
  - unfold authority_text. rewrite U2. exists [], host, pt. rewrite U3, U4, U5, U6. repeat split; [constructor|exact Pt].
  - destruct (u_query (mr_url r)) as [e|]; cbn [tail_of prefixed] in *; [|exact Tq]. destruct Tq as (x & -> & En). f_equal.
    apply (encoded_fun _ _ x _ _ query_ok (stays_encoded _ _ (Q x eq_refl)) En).
  - destruct (u_fragment (mr_url r)); cbn [tail_of prefixed] in *; [destruct Tf as (x & ? & _); discriminate|reflexivity].
  - rewrite U1. apply as_written_iff in N. rewrite (path_of_fun p _ _ Pp N), app_nil_r. cbn [s2b list_ascii_of_string app]. rewrite <- !app_assoc. reflexivity.
Qed.

(** ** Equal texts *)
Lemma text_determines (hp : host_parser) (s1 s2 t : str) (u1 u2 : url) : host_laws hp -> special_url hp s1 u1 -> special_url hp s2 u2 ->
  url_text u1 t -> url_text u2 t -> u1 = u2.
Proof.
  intros K S1 S2 T1 T2. apply (special_url_fun hp t); [now apply (reparse hp s1)|now apply (reparse hp s2)].
Qed.
Lemma read_special (trace : bool) (hp : host_parser) (sp : scheme_parser) (s : str) (r : mock) : scheme_laws sp ->
  from_reader trace (url_parse hp sp) s = Done (Some r) -> special (u_scheme (mr_url r)) -> exists t, special_url hp t (mr_url r).
Proof.
  intros K H S. assert (K' : forall sch rest v, ~ special sch -> sp sch rest = Ok v -> ~ special (u_scheme v)).
  { intros sch rest v N E. destruct (K sch rest N) as [_ G]. now rewrite (G v E). }
  apply read_accepts in H. destruct H as (_ & _ & [U|(_ & v & _ & _ & U)]).
  - exists (mr_path r). now apply (url_parse_special hp sp _ _ K').
  - eexists. apply (url_parse_special hp sp _ _ K'). split; [exact U|exact S].
Qed.
Lemma not_method (d : derived) (h : option str) (m1 m2 : str) (u : url) : it_bare (dc_item d) <> BString $"@method" -> dc_derive d h m1 u = dc_derive d h m2 u.
Proof.
  intro N. unfold dc_derive. destruct d as [[[] ps]]; try reflexivity. unfold dc_name. cbn [dc_item it_bare obind] in *.
  cbn [as_str unwrap obind]. destruct (str_eqb s AT_METHOD) eqn:E; [|reflexivity]. exfalso. apply N. apply str_eqb_eq in E. now rewrite E.
Qed.
Lemma read_same_uri (trace : bool) (hp : host_parser) (sp : scheme_parser) (s1 s2 : str) (r1 r2 : mock) (p1 p2 : params) : host_laws hp -> scheme_laws sp ->
  from_reader trace (url_parse hp sp) s1 = Done (Some r1) -> special (u_scheme (mr_url r1)) ->
  from_reader trace (url_parse hp sp) s2 = Done (Some r2) -> special (u_scheme (mr_url r2)) ->
  mr_derive r1 (derived_named $"@target-uri" p1) = mr_derive r2 (derived_named $"@target-uri" p2) ->
  mr_url r1 = mr_url r2 /\ forall d, it_bare (dc_item d) <> BString $"@method" -> mr_derive r1 (CDerived d) = mr_derive r2 (CDerived d).
Proof.
  intros K Ks H1 S1 H2 S2 E. destruct (read_special trace hp sp s1 r1 Ks H1 S1) as (t1 & U1). destruct (read_special trace hp sp s2 r2 Ks H2 S2) as (t2 & U2).
  destruct (mr_line r1 p1) as (_ & _ & _ & _ & D1 & _). destruct (mr_line r2 p2) as (_ & _ & _ & _ & D2 & _). cbv zeta in D1, D2.
  destruct (url_text_exists (mr_url r1)) as (t & T & _). assert (T' : url_text (mr_url r2) t) by (apply D2; rewrite <- E; now apply D1).
  pose proof (text_determines hp t1 t2 t _ _ K U1 U2 T T') as Eu. split; [exact Eu|]. intros d N. unfold mr_derive. rewrite Eu. now apply not_method.
Qed.
Lemma rq_same_uri (hp : host_parser) (s1 s2 : str) (r1 r2 : rq) (p1 p2 : params) : host_laws hp ->
  special_url hp s1 (rq_url r1) -> special_url hp s2 (rq_url r2) ->
  rq_derive r1 (derived_named $"@target-uri" p1) = rq_derive r2 (derived_named $"@target-uri" p2) ->
  rq_url r1 = rq_url r2 /\ forall d, it_bare (dc_item d) <> BString $"@method" -> rq_derive r1 (CDerived d) = rq_derive r2 (CDerived d).
Proof.
  intros K U1 U2 E.
  destruct (rq_line r1 p1) as (_ & _ & _ & _ & D1 & _). destruct (rq_line r2 p2) as (_ & _ & _ & _ & D2 & _). cbv zeta in D1, D2.
  destruct (url_text_exists (rq_url r1)) as (t & T & _). assert (T' : url_text (rq_url r2) t) by (apply D2; rewrite <- E; now apply D1).
  pose proof (text_determines hp s1 s2 t _ _ K U1 U2 T T') as Eu. split; [exact Eu|]. intros d N. unfold rq_derive, rq_host. rewrite Eu. now apply not_method.
Qed.

(** ** Accepted requests *)
Lemma accepted_uri {R} (cr : client_request_like R) (L : client_laws cr) (r r' : R) (c : signing_config) (env : sign_env) (s : mock) (vc : verifying_config)
  (venv : verify_env) (kid : str) (u : url) (ps : params) (hp : host_parser) (t1 t2 : str) : host_laws hp ->
  sys_clock_ok (se_sys env) -> sign cr r c env = Done (r', Ok tt) ->
  Forall component_rep (sc_components c) -> sc_nonce c <> Some [] ->
  mr_derive s (CHeader $"signature-input") = rl_derive (cr_rl cr) r' (CHeader $"signature-input") ->
  mr_derive s (CHeader $"signature") = rl_derive (cr_rl cr) r' (CHeader $"signature") ->
  ~ In "="%char (sc_label c) -> plain (sc_label c) ->
  (forall m, let sig := sg_sign (sc_signature c) (se_rnd env) m in plain sig /\ clean_signature sig) ->
  (forall q v, In q (sc_components c) -> rl_derive (cr_rl cr) r' q = Done (Some v) -> ~ is_query_params q -> no_lf v) ->
  (forall q v, In q (sc_components c) -> rl_derive (cr_rl cr) r q = Done (Some v) -> ~ is_query_params q -> no_lf v) ->
  no_lf (mr_method s) -> (forall q, In q (sc_components c) -> ~ is_query_params q) ->
  (forall t, rl_derive (cr_rl cr) r' (derived_named $"@target-uri" ps) = Done (Some t) <-> url_text u t) ->
  special_url hp t1 u -> special_url hp t2 (mr_url s) -> In (derived_named $"@target-uri" ps) (sc_components c) ->
  verify mr_server s vc venv = Done (Ok (tt, kid)) ->
  mr_url s = u
  \/ exists m1 m2 k, two_bases (signed_view (cr_rl cr) r r') (mr_derive s) c (seconds (se_sys env)) m1 m2
      /\ In k (vc_keys vc (sc_key_id c)) /\ vf_verify k m2 (sg_sign (sc_signature c) (se_rnd env) m1) = true.
Proof.
  intros K Sy Sg Rp N Hi Hs Eq Pl Cl Nl' Nl Ml Nq Hu U1 U2 Hin V.
  assert (Lf : same_line_feeds (signed_view (cr_rl cr) r r') (mr_derive s) (sc_components c)).
  { assert (Z : forall v, no_lf v -> lf_count v = 0%nat).
    { induction v as [|x v IH]; intro F; [reflexivity|]. unfold lf_count in *. cbn [count_occ]. destruct (ascii_dec x ch_lf) as [E|E]; [exfalso; apply F; now left|].
      apply IH. intro I. apply F. now right. }
    intros q v w Hq D1 D2. rewrite !Z; [reflexivity| |].
    - apply (mr_no_lf s q w); [now apply (special_line hp t2)|exact (Nq q Hq)|exact D2].
    - assert (D : rl_derive (cr_rl cr) r q = Done (Some v) \/ rl_derive (cr_rl cr) r' q = Done (Some v)).
      { destruct q as [d|h]; unfold signed_view in D1; [now right|]. destruct (list_eq_dec _ _ _); [now left|]. destruct (list_eq_dec _ _ _); [now left|now right]. }
      destruct D as [D|D]; [exact (Nl q v Hq D (Nq q Hq))|exact (Nl' q v Hq D (Nq q Hq))]. }
  destruct (tamper_values cr L r r' c env Sy Sg Rp N mr_server mr_server_laws s vc venv Hi Hs tt kid Eq Pl Cl Lf V) as [H|H]; [left|right; exact H].
  destruct (url_text_exists u) as (t & T & _).
  assert (D : mr_derive s (derived_named $"@target-uri" ps) = Done (Some t)). { apply (H _ _ Hin). unfold signed_view, derived_named. now apply Hu. }
  destruct (mr_line s ps) as (_ & _ & _ & _ & D2 & _). apply D2 in D. now apply (text_determines hp t2 t1 t).
Qed.
Lemma accepted_rq (cr : client_request_like rq) (r r' : rq) (c : signing_config) (env : sign_env) (s : mock) (vc : verifying_config)
  (venv : verify_env) (kid : str) (ps : params) (hp : host_parser) (t1 t2 : str) : cr = rq_async \/ cr = rq_blocking -> host_laws hp ->
  sys_clock_ok (se_sys env) -> sign cr r c env = Done (r', Ok tt) ->
  Forall component_rep (sc_components c) -> sc_nonce c <> Some [] ->
  mr_derive s (CHeader $"signature-input") = rq_derive r' (CHeader $"signature-input") ->
  mr_derive s (CHeader $"signature") = rq_derive r' (CHeader $"signature") ->
  ~ In "="%char (sc_label c) -> plain (sc_label c) ->
  (forall m, let sig := sg_sign (sc_signature c) (se_rnd env) m in plain sig /\ clean_signature sig) ->
  no_lf (rq_method r) -> no_lf (mr_method s) -> (forall q, In q (sc_components c) -> ~ is_query_params q) ->
  special_url hp t1 (rq_url r) -> special_url hp t2 (mr_url s) -> In (derived_named $"@target-uri" ps) (sc_components c) ->
  verify mr_server s vc venv = Done (Ok (tt, kid)) ->
  mr_url s = rq_url r
  \/ exists m1 m2 k, two_bases (signed_view rq_rl r r') (mr_derive s) c (seconds (se_sys env)) m1 m2
      /\ In k (vc_keys vc (sc_key_id c)) /\ vf_verify k m2 (sg_sign (sc_signature c) (se_rnd env) m1) = true.
Proof.
  intros Hc K Sy Sg Rp N Hi Hs Eq Pl Cl Mr Ms Nq U1 U2 Hin V. assert (L : client_laws cr) by (destruct Hc as [-> | ->]; [exact rq_async_laws|exact rq_blocking_laws]).
  assert (E : cr_rl cr = rq_rl) by (destruct Hc as [-> | ->]; reflexivity).
  destruct (rq_frame cr r r' c env (Ok tt) Hc Sy Sg) as (F1 & F2 & _).
  assert (X : forall r0 q v, rq_method r0 = rq_method r -> rq_url r0 = rq_url r -> rq_derive r0 q = Done (Some v) -> ~ is_query_params q -> no_lf v).
  { intros r0 q v E1 E2 D Q. apply (rq_no_lf r0 q v); [|exact Q|exact D]. rewrite E1, E2. now apply (special_line hp t1). }
  pose proof (accepted_uri cr L r r' c env s vc venv kid (rq_url r) ps hp t1 t2) as A. rewrite E in A. cbn [rl_derive rq_rl] in A. 
  apply A; try assumption; [intros q v _ D Q; now apply (X r' q v)|intros q v _ D Q; now apply (X r q v)|].
  destruct (rq_line r' ps) as (_ & _ & _ & _ & D & _). cbv zeta in D. rewrite F2 in D. exact D.
Qed.
Lemma accepted_mr (r r' : mock) (c : signing_config) (env : sign_env) (s : mock) (vc : verifying_config)
  (venv : verify_env) (kid : str) (ps : params) (hp : host_parser) (t1 t2 : str) : host_laws hp ->
  sys_clock_ok (se_sys env) -> sign mr_client r c env = Done (r', Ok tt) ->
  Forall component_rep (sc_components c) -> sc_nonce c <> Some [] ->
  mr_derive s (CHeader $"signature-input") = mr_derive r' (CHeader $"signature-input") ->
  mr_derive s (CHeader $"signature") = mr_derive r' (CHeader $"signature") ->
  ~ In "="%char (sc_label c) -> plain (sc_label c) ->
  (forall m, let sig := sg_sign (sc_signature c) (se_rnd env) m in plain sig /\ clean_signature sig) ->
  no_lf (mr_method r) -> no_lf (mr_method s) -> (forall q, In q (sc_components c) -> ~ is_query_params q) ->
  special_url hp t1 (mr_url r) -> special_url hp t2 (mr_url s) -> In (derived_named $"@target-uri" ps) (sc_components c) ->
  verify mr_server s vc venv = Done (Ok (tt, kid)) ->
  mr_url s = mr_url r
  \/ exists m1 m2 k, two_bases (signed_view mr_rl r r') (mr_derive s) c (seconds (se_sys env)) m1 m2
      /\ In k (vc_keys vc (sc_key_id c)) /\ vf_verify k m2 (sg_sign (sc_signature c) (se_rnd env) m1) = true.
Proof.
  intros K Sy Sg Rp N Hi Hs Eq Pl Cl Mr Ms Nq U1 U2 Hin V.
  destruct (mock_frame r r' c env (Ok tt) Sy Sg) as (_ & F1 & F2 & _).
  assert (X : forall r0 q v, mr_method r0 = mr_method r -> mr_url r0 = mr_url r -> mr_derive r0 q = Done (Some v) -> ~ is_query_params q -> no_lf v).
  { intros r0 q v E1 E2 D Q. apply (mr_no_lf r0 q v); [|exact Q|exact D]. rewrite E1, E2. now apply (special_line hp t1). }
  apply (accepted_uri mr_client mr_client_laws r r' c env s vc venv kid (mr_url r) ps hp t1 t2); try assumption;
    [intros q v _ D Q; now apply (X r' q v)|intros q v _ D Q; now apply (X r q v)|].
  destruct (mr_line r' ps) as (_ & _ & _ & _ & D & _). cbv zeta in D. rewrite F2 in D. exact D.
Qed.

(** ** Another target for the same URL *)
Lemma dot_path (p t : str) : path_of p t -> path_of ($"./" ++ p) t.
Proof. intro H. apply path_of_iff in H. apply path_of_iff. exact H. Qed.
Lemma dot_target (hp : host_parser) (sp : scheme_parser) (r : mock) (v host : str) (port : option N) (p q f : str) :
  target_url (url_parse hp sp) (mr_path r) (mr_headers r) (mr_url r) -> first_value (mr_headers r) $"host" = Some v ->
  plain_host hp v host port -> target_parts (mr_path r) p q f ->
  target_url (url_parse hp sp) ($"/." ++ mr_path r) (mr_headers r) (mr_url r).
Proof.
  intros T F P Tp. pose proof Tp as (E & Fp & Hq & Nq & Hf & Nl). right. split; [apply slash_relative|].
  destruct T as [T|(_ & v' & F' & V & U)]; [rewrite E, slash_relative in T; discriminate|]. assert (v' = v) as -> by congruence.
  exists v. split; [exact F|]. split; [exact V|].
  change ($"http://" ++ v ++ mr_path r) with ($"http:" ++ $"//" ++ v ++ mr_path r) in U. apply http_text in U.
  destruct (plain_special hp v host port _ p q f P Tp) as (u & U' & R). rewrite (special_url_fun hp _ _ _ U U').
  assert (Tp' : target_parts ($"/." ++ mr_path r) ($"./" ++ p) q f).
  { split; [now rewrite E|]. split; [|]. - apply Forall_app. split; [repeat constructor; discriminate|exact Fp].
    - repeat (split; [assumption|]). apply Forall_app. split; [repeat constructor; unfold low; cbn; lia|exact Nl]. }
  destruct (plain_special hp v host port _ _ q f P Tp') as (w & W & R').
  change ($"http://" ++ v ++ $"/." ++ mr_path r) with ($"http:" ++ $"//" ++ v ++ $"/." ++ mr_path r). apply http_text.
  replace u with w; [exact W|].
  destruct R as (R1 & R2 & R3 & R4 & R5 & R6 & R7 & R8 & R9), R' as (Q1 & Q2 & Q3 & Q4 & Q5 & Q6 & Q7 & Q8 & Q9).
  assert (Ep : u_path w = u_path u) by (apply (path_of_fun _ _ _ Q7), dot_path, R7).
  assert (Et : forall c f' set o o' x, set_ok f' set -> tail_of c set o x -> tail_of c set o' x -> o = o').
  { intros c f' set o o' x Ok A B. destruct o as [a|], o' as [b|]; cbn [tail_of] in *; [|destruct A as (y & -> & _); discriminate|destruct B as (y & -> & _); discriminate|reflexivity].
    destruct A as (y & -> & A), B as (z & B0 & B). injection B0 as <-. now rewrite (encoded_fun _ _ _ _ _ Ok A B). }
  pose proof (Et _ _ _ _ _ _ query_ok R8 Q8) as Eq. pose proof (Et _ _ _ _ _ _ fragment_ok R9 Q9) as Ef.
  destruct u, w. cbn in *. congruence.
Qed.
Lemma retarget_same (r : mock) (t : str) : (forall q, mr_derive (retarget r t) q = mr_derive r q)
  /\ forall vc env, verdict_of (verify mr_server (retarget r t) vc env) = verdict_of (verify mr_server r vc env).
Proof. destruct r. split; [reflexivity|]. intros vc env. apply same_verdicts; reflexivity. Qed.
Lemma read_panics_url (trace : bool) (hp : host_parser) (sp : scheme_parser) (s : str) : scheme_laws sp ->
  (from_reader trace (url_parse hp sp) s = Panic <->
   exists r, frames s r /\ (~ loggable trace r \/
     ~ has_scheme (mr_path r)
     /\ exists host, first_value (mr_headers r) $"host" = Some host /\ Forall (fun c => visible c \/ c = ascii_of_nat 9) host
                     /\ forall u, ~ special_url hp ($"http://" ++ host ++ mr_path r) u)).
Proof.
  intro K. rewrite read_panics.
  assert (X : forall w, (exists e, url_parse hp sp ($"http://" ++ w) = Err e) <-> forall u, ~ special_url hp ($"http://" ++ w) u).
  { intro w. change ($"http://" ++ w) with ($"http:" ++ $"//" ++ w). split.
    - intros [e E] u U. apply (http_text hp sp) in U. congruence.
    - intro N. destruct (url_parse hp sp ($"http:" ++ $"//" ++ w)) as [u|e] eqn:E; [|eauto]. apply http_text in E. now apply N in E. }
  split; intros (r & F & [L|(R & H)]); exists r; (split; [exact F|]); [now left| |now left|]; right.
  - apply (relative_iff hp sp _ K) in R. split; [exact R|]. destruct H as (h & e & H1 & H2 & H3). exists h. split; [exact H1|]. split; [exact H2|].
    intros u U. apply (X (h ++ mr_path r)) in U; [exact U|eauto].
  - apply (relative_iff hp sp _ K) in R. split; [exact R|]. destruct H as (h & H1 & H2 & H3). apply X in H3. destruct H3 as [e H3]. eauto 10.
Qed.
Lemma parser_spec (hp : host_parser) (sp : scheme_parser) (s : str) (u : url) : scheme_laws sp ->
  (url_parse hp sp s = Ok u /\ special (u_scheme u) <-> special_url hp s u)
  /\ (url_parse hp sp s = Err RelativeUrlWithoutBase <-> ~ has_scheme s).
Proof.
  intro K. split; [|now apply relative_iff]. symmetry. apply url_parse_special.
  intros sch rest v N E. destruct (K sch rest N) as [_ G]. now rewrite (G v E).
Qed.
Lemma dot_retarget (hp : host_parser) (sp : scheme_parser) (r : mock) (v host : str) (port : option N) (p q f : str) :
  target_url (url_parse hp sp) (mr_path r) (mr_headers r) (mr_url r) -> first_value (mr_headers r) $"host" = Some v ->
  plain_host hp v host port -> target_parts (mr_path r) p q f ->
  let r' := retarget r ($"/." ++ mr_path r) in
  target_url (url_parse hp sp) (mr_path r') (mr_headers r') (mr_url r') /\ mr_path r' <> mr_path r
  /\ (forall c, mr_derive r' c = mr_derive r c)
  /\ forall vc env, verdict_of (verify mr_server r' vc env) = verdict_of (verify mr_server r vc env).
Proof.
  intros T F P Tp r'. split; [now apply (dot_target hp sp r v host port p q f)|]. split; [|apply retarget_same].
  intro E. apply (f_equal (@List.length ascii)) in E. cbn in E. lia.
Qed.
