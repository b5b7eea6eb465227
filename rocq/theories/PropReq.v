(** Properties of requests: C05, C31, C34-C37, C39. *)
From Verif Require Import SpecLine LineFacts Samples.

(** C05: expected, but false: line feeds inside values, and an absent parameter against
    an empty one. *)
Theorem C05_query_parameters_bound_refuted :
  exists (r s : rq) (c : canon_config) (n : str) ps qs base si1 si2,
    query_params (url_query (rq_url r)) ps /\ query_params (url_query (rq_url s)) qs
    /\ In (query_params_of n) (cc_components c)
    /\ canonicalize rq_rl r c = Done (Ok (base, si1)) /\ canonicalize rq_rl s c = Done (Ok (base, si2))
    /\ values_named n ps = [$"1" ++ [ch_lf] ++ $"2"] /\ values_named n qs = [$"1"; $"2"].
Proof.
  exists (Rq $"GET" (Url $"http" true [] None (Some $"h") None $"/" (Some $"a=1%0A2") None) [] BNone),
    (Rq $"GET" (Url $"http" true [] None (Some $"h") None $"/" (Some $"a=1&a=2") None) [] BNone),
    (cc_set_components cc_new [query_params_of $"a"]), $"a", [($"a", $"1" ++ [ch_lf] ++ $"2")], [($"a", $"1"); ($"a", $"2")].
  eexists _, _, _. split; [apply query_params_iff; reflexivity|]. split; [apply query_params_iff; reflexivity|].
  split; [left; reflexivity|]. split; [reflexivity|]. split; reflexivity || (split; reflexivity).
Qed.
Print Assumptions C05_query_parameters_bound_refuted.
Theorem C05_absent_parameter_refuted :
  exists (r s : rq) (c : canon_config) (n : str) ps qs base si1 si2,
    query_params (url_query (rq_url r)) ps /\ query_params (url_query (rq_url s)) qs
    /\ In (query_params_of n) (cc_components c)
    /\ canonicalize rq_rl r c = Done (Ok (base, si1)) /\ canonicalize rq_rl s c = Done (Ok (base, si2))
    /\ values_named n ps = [] /\ values_named n qs = [[]].
Proof.
  exists (Rq $"GET" (Url $"http" true [] None (Some $"h") None $"/" (Some $"b=1") None) [] BNone),
    (Rq $"GET" (Url $"http" true [] None (Some $"h") None $"/" (Some $"a=") None) [] BNone),
    (cc_set_components cc_new [query_params_of $"a"]), $"a", [($"b", $"1")], [($"a", [])].
  eexists _, _, _. split; [apply query_params_iff; reflexivity|]. split; [apply query_params_iff; reflexivity|].
  split; [left; reflexivity|]. split; [reflexivity|]. split; reflexivity || (split; reflexivity).
Qed.
Print Assumptions C05_absent_parameter_refuted.
(** What holds: without line feeds in values the lists of values agree, except that an
    absent parameter looks like one empty value. *)
Theorem C05_query_parameters_bound_partial :
  forall (r s : rq) (c : canon_config) base si1 si2 pre post n ps qs,
  query_params (url_query (rq_url r)) ps -> query_params (url_query (rq_url s)) qs ->
  cc_components c = pre ++ query_params_of n :: post ->
  canonicalize rq_rl r c = Done (Ok (base, si1)) -> canonicalize rq_rl s c = Done (Ok (base, si2)) ->
  (forall x t, In x (pre ++ post) -> rl_derive rq_rl r x = Done (Some t) -> no_lf t) ->
  (forall x t, In x (pre ++ post) -> rl_derive rq_rl s x = Done (Some t) -> no_lf t) ->
  Forall no_lf (values_named n ps) -> Forall no_lf (values_named n qs) ->
  values_named n ps = values_named n qs
  \/ values_named n ps = [] /\ values_named n qs = [[]] \/ values_named n ps = [[]] /\ values_named n qs = [].
Proof. exact rq_params_bound. Qed.
Print Assumptions C05_query_parameters_bound_partial.
Theorem C05_query_parameters_bound_mock_partial :
  forall (r s : mock) (c : canon_config) base si1 si2 pre post n ps qs,
  query_params (url_query (mr_url r)) ps -> query_params (url_query (mr_url s)) qs ->
  cc_components c = pre ++ query_params_of n :: post ->
  canonicalize mr_rl r c = Done (Ok (base, si1)) -> canonicalize mr_rl s c = Done (Ok (base, si2)) ->
  (forall x t, In x (pre ++ post) -> rl_derive mr_rl r x = Done (Some t) -> no_lf t) ->
  (forall x t, In x (pre ++ post) -> rl_derive mr_rl s x = Done (Some t) -> no_lf t) ->
  Forall no_lf (values_named n ps) -> Forall no_lf (values_named n qs) ->
  values_named n ps = values_named n qs
  \/ values_named n ps = [] /\ values_named n qs = [[]] \/ values_named n ps = [[]] /\ values_named n qs = [].
Proof. exact mock_params_bound. Qed.
Print Assumptions C05_query_parameters_bound_mock_partial.
Example C05_case : let c := cc_set_components cc_new [CDerived (dc_new AT_METHOD); query_params_of $"a"; CHeader h_date] in
  let r' := Rq $"POST" (Url $"http" true [] None None None $"/" (Some $"%61=%31&c&a=2") None) (rq_headers s_req) BNone in
  (exists ps, query_params (url_query (rq_url s_req)) ps /\ values_named $"a" ps = [$"1"; $"2"] /\ Forall no_lf (values_named $"a" ps))
  /\ (exists base si, canonicalize rq_rl s_req c = Done (Ok (base, si)) /\ canonicalize rq_rl r' c = Done (Ok (base, si)))
  /\ (forall x t, In x [CDerived (dc_new AT_METHOD); CHeader h_date] -> rl_derive rq_rl s_req x = Done (Some t) -> no_lf t).
Proof.
  cbv zeta. split; [|split].
  - exists (form_parse $"a=1&a=2&b=x%20y"). split; [now apply query_params_iff|]. split; [reflexivity|].
    change (values_named $"a" (form_parse $"a=1&a=2&b=x%20y")) with [$"1"; $"2"]. repeat constructor; now apply no_lf_lit.
  - eexists _, _. split; vm_compute; reflexivity.
  - intros x t [<-|[<-|[]]] H; injection H as <-; now apply no_lf_lit.
Qed.

(** C31: after any sequence of header writes, under any spelling of the names, a header
    reads as the last value written to it, and everything else is as before.  [client_laws]
    hold for both reqwest types and MockRequest ([C25_laws]). *)
Theorem C31_headers_last_write_wins :
  forall R (cr : client_request_like R), client_laws cr -> forall (r r' : R) (ws : list (str * str)), wrote cr r ws r' ->
  (forall d, rl_derive (cr_rl cr) r' (CDerived d) = rl_derive (cr_rl cr) r (CDerived d))
  /\ forall n h, spelled n h -> comp_from_str n = Ok (CHeader h)
     /\ (forall v, last_written ws n v -> plain v -> rl_derive (cr_rl cr) r' (CHeader h) = Done (Some v))
     /\ (not_written ws n -> rl_derive (cr_rl cr) r' (CHeader h) = rl_derive (cr_rl cr) r (CHeader h)).
Proof. exact @header_history. Qed.
Print Assumptions C31_headers_last_write_wins.
(** MockRequest::with_header is such a write, or a panic. *)
Theorem C31_with_header : forall (r : mock) (n v : str) (r' : mock),
  mr_with_header r n v = Done r' <-> exists h, spelled n h /\ legal_value v /\ r' = mr_set_header r h v.
Proof. exact with_header_iff. Qed.
Print Assumptions C31_with_header.
Theorem C31_with_header_panics : forall (r : mock) (n v : str),
  mr_with_header r n v = Panic <-> ~ (field_name n /\ legal_value v).
Proof. exact with_header_panic. Qed.
Print Assumptions C31_with_header_panics.
Example C31_case : exists r', wrote mr_client m_req [($"X-A", $"1"); ($"DATE", $"now"); ($"x-a", $"2")] r'
  /\ spelled $"X-a" $"x-a" /\ last_written [($"X-A", $"1"); ($"DATE", $"now"); ($"x-a", $"2")] $"X-a" $"2"
  /\ not_written [($"X-A", $"1"); ($"DATE", $"now"); ($"x-a", $"2")] $"Content-Type".
Proof.
  eexists. split; [|split; [|split]].
  - econstructor; [apply spelled_iff; vm_compute; reflexivity|]. econstructor; [apply spelled_iff; vm_compute; reflexivity|].
    econstructor; [apply spelled_iff; vm_compute; reflexivity|]. constructor.
  - apply spelled_iff. vm_compute. reflexivity.
  - exists [($"X-A", $"1"); ($"DATE", $"now")], $"x-a", []. split; [reflexivity|]. split; [now apply same_name_iff|constructor].
  - repeat constructor; intro H; apply same_name_iff in H; discriminate.
Qed.

(** C34: the parameters of a query are well defined, and [@query-params] gives the values
    of the named one. *)
Theorem C34_query_parameters_defined : forall q, exists ps, query_params q ps /\ forall ps', query_params q ps' -> ps' = ps.
Proof. exact query_params_unique. Qed.
Print Assumptions C34_query_parameters_defined.
Theorem C34_query_params_derive : forall (r : rq) (p : list (str * bare)) ps, query_params (url_query (rq_url r)) ps ->
  (forall n, value_of $"name" p = Some (BString n) ->
     rq_derive r (derived_named $"@query-params" p) = Done (Some (lines (values_named n ps))))
  /\ ((forall n, value_of $"name" p <> Some (BString n)) -> rq_derive r (derived_named $"@query-params" p) = Done None).
Proof. exact rq_query. Qed.
Print Assumptions C34_query_params_derive.
Theorem C34_query_params_derive_mock : forall (r : mock) (p : list (str * bare)) ps, query_params (url_query (mr_url r)) ps ->
  (forall n, value_of $"name" p = Some (BString n) ->
     mr_derive r (derived_named $"@query-params" p) = Done (Some (lines (values_named n ps))))
  /\ ((forall n, value_of $"name" p <> Some (BString n)) -> mr_derive r (derived_named $"@query-params" p) = Done None).
Proof. exact mr_query. Qed.
Print Assumptions C34_query_params_derive_mock.
Theorem C34_encoded_parameters : forall ps,
  Forall (fun p => utf8_text (fst p) /\ utf8_text (snd p)) ps -> query_params (form_query ps) ps.
Proof. exact form_query_params. Qed.
Print Assumptions C34_encoded_parameters.
Theorem C34_lossy_decoding : forall s t, lossy_text s t -> utf8_text t /\ (utf8_text s -> t = s).
Proof. exact lossy_summary. Qed.
Print Assumptions C34_lossy_decoding.
Example C34_case : exists ps, query_params $"a=1+2&&b&a=%E2%82%ac%3D=&%61=%ff&a%3d=z&=y" ps
  /\ values_named $"a" ps = [$"1 2"; ["226"; "130"; "172"; "="; "="]%char; ["239"; "191"; "189"]%char]
  /\ values_named $"b" ps = [[]] /\ values_named $"a=" ps = [$"z"] /\ values_named [] ps = [$"y"].
Proof. eexists. split; [apply query_params_iff; reflexivity|]. vm_compute. repeat split; reflexivity. Qed.
Example C34_case_encoded : utf8_text ["226"; "130"; "172"; "="; "&"; " "; "%"]%char
  /\ form_query [($"a b", ["226"; "130"; "172"; "="; "&"; " "; "%"]%char); ($"c", [])] = $"a+b=%E2%82%AC%3D%26+%25&c=".
Proof. split; [apply lossy_text_iff, lossy_iff; reflexivity|reflexivity]. Qed.

(** C35: the derived components, whatever their parameters. *)
Theorem C35_request_line_components_partial : forall (r : rq) (p : list (str * bare)),
  let d n := rq_derive r (derived_named n p) in let u := rq_url r in
  d $"@method" = Done (Some (rq_method r))
  /\ d $"@scheme" = Done (Some (u_scheme u))
  /\ d $"@path" = Done (Some (u_path u))
  /\ d $"@query" = Done (match u_query u with None => None | Some q => Some ("?"%char :: q) end)
  /\ (forall t, d $"@target-uri" = Done (Some t) <-> url_text u t)
  /\ (forall t, d $"@request-target" = Done (Some t) <-> url_text u t)
  /\ (forall n, ~ In n [$"@method"; $"@scheme"; $"@path"; $"@query"; $"@target-uri"; $"@request-target"; $"@authority"; $"@query-params"] ->
        d n = Done None).
Proof. exact rq_line. Qed.
Print Assumptions C35_request_line_components_partial.
Theorem C35_request_line_components_mock_partial : forall (r : mock) (p : list (str * bare)),
  let d n := mr_derive r (derived_named n p) in let u := mr_url r in
  d $"@method" = Done (Some (mr_method r))
  /\ d $"@scheme" = Done (Some (u_scheme u))
  /\ d $"@path" = Done (Some (u_path u))
  /\ d $"@query" = Done (match u_query u with None => None | Some q => Some ("?"%char :: q) end)
  /\ (forall t, d $"@target-uri" = Done (Some t) <-> url_text u t)
  /\ (forall t, d $"@request-target" = Done (Some t) <-> url_text u t)
  /\ (forall n, ~ In n [$"@method"; $"@scheme"; $"@path"; $"@query"; $"@target-uri"; $"@request-target"; $"@authority"; $"@query-params"] ->
        d n = Done None).
Proof. exact mr_line. Qed.
Print Assumptions C35_request_line_components_mock_partial.
Theorem C35_url_text_defined : forall u, exists t, url_text u t /\ forall t', url_text u t' -> t' = t.
Proof. exact url_text_exists. Qed.
Print Assumptions C35_url_text_defined.
(** [@request-target] is never the origin form "path?query" a request line carries. *)
Theorem C35_request_target_never_origin_form_refuted : forall (r : rq) (m : mock) (p : list (str * bare)),
  (forall q t, prefixed "?" (u_query (rq_url r)) q -> rq_derive r (derived_named $"@request-target" p) = Done (Some t) -> t <> u_path (rq_url r) ++ q)
  /\ (forall q t, prefixed "?" (u_query (mr_url m)) q -> mr_derive m (derived_named $"@request-target" p) = Done (Some t) -> t <> u_path (mr_url m) ++ q).
Proof. exact origin_form_never. Qed.
Print Assumptions C35_request_target_never_origin_form_refuted.
(** [@target-uri] has the fragment, which is no part of a request. *)
Theorem C35_target_uri_fragment_refuted : exists u u' : url,
  (u_scheme u, u_host u, u_port u, u_path u, u_query u) = (u_scheme u', u_host u', u_port u', u_path u', u_query u')
  /\ forall r r' p, rq_url r = u -> rq_url r' = u' ->
     rq_derive r (derived_named $"@target-uri" p) <> rq_derive r' (derived_named $"@target-uri" p).
Proof.
  exists (Url $"http" true [] None (Some $"h") None $"/" None None), (Url $"http" true [] None (Some $"h") None $"/" None (Some $"top")).
  split; [reflexivity|]. intros r r' p E E' H. destruct r as [m1 u1 h1 b1], r' as [m2 u2 h2 b2]. cbn [rq_url] in E, E'. subst u1 u2. discriminate.
Qed.
Print Assumptions C35_target_uri_fragment_refuted.
Example C35_case : let u := Url $"https" true $"me" (Some $"pw") (Some $"example.com") (Some 8443%N) $"/a/b" (Some $"x=1") (Some $"top") in
  url_text u $"https://me:pw@example.com:8443/a/b?x=1#top".
Proof. apply url_text_iff. reflexivity. Qed.

(** C36: expected, but false: the port is not part of [@authority], and MockRequest has
    no [@authority] at all. *)
Theorem C36_authority_refuted : exists (r s : rq),
  u_port (rq_url r) <> u_port (rq_url s)
  /\ forall p, exists v, rq_derive r (derived_named $"@authority" p) = Done (Some v) /\ rq_derive s (derived_named $"@authority" p) = Done (Some v).
Proof.
  exists (Rq $"GET" (Url $"http" true [] None (Some $"h") (Some 80%N) $"/" None None) [] BNone),
    (Rq $"GET" (Url $"http" true [] None (Some $"h") (Some 8080%N) $"/" None None) [] BNone).
  split; [discriminate|]. intro p. exists $"h". split; reflexivity.
Qed.
Print Assumptions C36_authority_refuted.
Theorem C36_mock_authority_never_derives_refuted : forall (r : mock) (p : list (str * bare)),
  mr_derive r (derived_named $"@authority" p) = Done None.
Proof. exact mr_authority. Qed.
Print Assumptions C36_mock_authority_never_derives_refuted.
Theorem C36_authority_identifies_host_partial : forall (r s : rq) (p q : list (str * bare)) (v w : str),
  rq_derive r (derived_named $"@authority" p) = Done (Some v) -> rq_derive s (derived_named $"@authority" q) = Done (Some w) ->
  (u_host (rq_url r) <> u_host (rq_url s) <-> v <> w).
Proof. exact rq_authority_bound. Qed.
Print Assumptions C36_authority_identifies_host_partial.
Example C36_case : rq_derive s_req (derived_named $"@authority" []) = Done (Some $"example.com").
Proof. reflexivity. Qed.

(** C37: expected, but false: only the first value of a header is covered. *)
Theorem C37_repeated_header_refuted : exists (r s : rq) (c : canon_config) base si,
  In (CHeader $"x-a") (cc_components c)
  /\ hm_get_all (rq_headers r) $"x-a" = [$"1"; $"2"] /\ hm_get_all (rq_headers s) $"x-a" = [$"1"; $"evil"]
  /\ canonicalize rq_rl r c = Done (Ok (base, si)) /\ canonicalize rq_rl s c = Done (Ok (base, si)).
Proof.
  exists (Rq $"GET" s_url [($"x-a", $"1"); ($"x-a", $"2")] BNone), (Rq $"GET" s_url [($"x-a", $"1"); ($"x-a", $"evil")] BNone),
    (cc_set_components cc_new [CHeader $"x-a"]).
  eexists _, _. split; [now left|]. split; [reflexivity|]. split; [reflexivity|]. split; reflexivity.
Qed.
Print Assumptions C37_repeated_header_refuted.
Theorem C37_only_first_values_matter : forall (r s : rq) (c : canon_config),
  rq_method r = rq_method s -> rq_url r = rq_url s ->
  (forall h, In (CHeader h) (cc_components c) -> first_value (rq_headers r) h = first_value (rq_headers s) h) ->
  canonicalize rq_rl r c = canonicalize rq_rl s c.
Proof. exact rq_first_values. Qed.
Print Assumptions C37_only_first_values_matter.
Theorem C37_only_first_values_matter_mock : forall (r s : mock) (c : canon_config),
  mr_method r = mr_method s -> mr_url r = mr_url s ->
  (forall h, In (CHeader h) (cc_components c) -> first_value (mr_headers r) h = first_value (mr_headers s) h) ->
  canonicalize mr_rl r c = canonicalize mr_rl s c.
Proof. exact mr_first_values. Qed.
Print Assumptions C37_only_first_values_matter_mock.
(** What holds: the first value is covered, hence all of a header that has one value. *)
Theorem C37_first_value_bound_partial : forall (r s : rq) (c : canon_config) base si1 si2,
  line_request (rq_method r) (rq_url r) -> line_request (rq_method s) (rq_url s) ->
  (forall x, In x (cc_components c) -> ~ is_query_params x) ->
  canonicalize rq_rl r c = Done (Ok (base, si1)) -> canonicalize rq_rl s c = Done (Ok (base, si2)) ->
  forall h, In (CHeader h) (cc_components c) ->
  exists v, first_value (rq_headers r) h = Some v /\ first_value (rq_headers s) h = Some v.
Proof. exact rq_headers_bound. Qed.
Print Assumptions C37_first_value_bound_partial.
Example C37_case : line_request (rq_method s_req) (rq_url s_req) /\ (forall x, In x (cc_components s_cfg) -> ~ is_query_params x)
  /\ first_value (rq_headers s_req) h_date = Some $"Tue, 20 Apr 2021 02:07:55 GMT".
Proof.
  split; [|split; [|reflexivity]].
  - unfold line_request. cbn [s_req rq_method rq_url s_url u_scheme u_username u_password u_host u_path u_query u_fragment no_lf_opt].
    repeat split; now apply no_lf_lit.
  - intros x [<-|[<-|[<-|[]]]] (p & E); discriminate.
Qed.

(** C39: expected, but false for MockRequest: header values that are not visible ASCII
    are all signed as the empty text. *)
Theorem C39_opaque_headers_refuted : exists (r s : mock) (c : canon_config) base si v w,
  In (CHeader $"x-a") (cc_components c) /\ legal_value v /\ legal_value w /\ v <> w
  /\ hm_get_all (mr_headers r) $"x-a" = [v] /\ hm_get_all (mr_headers s) $"x-a" = [w]
  /\ canonicalize mr_rl r c = Done (Ok (base, si)) /\ canonicalize mr_rl s c = Done (Ok (base, si)).
Proof.
  exists (MockReq HTTP_11 $"GET" s_url $"/" [($"x-a", ["255"%char])] None), (MockReq HTTP_11 $"GET" s_url $"/" [($"x-a", ["254"%char])] None),
    (cc_set_components cc_new [CHeader $"x-a"]).
  eexists _, _. exists ["255"%char], ["254"%char]. split; [now left|]. split; [now apply legal_iff|]. split; [now apply legal_iff|].
  split; [discriminate|]. split; [reflexivity|]. split; [reflexivity|]. split; reflexivity.
Qed.
Print Assumptions C39_opaque_headers_refuted.
(** What holds: reqwest never signs such a header, and MockRequest confuses only such
    values and the empty one. *)
Theorem C39_opaque_header_missing_partial : forall (r : rq) (h v : str),
  first_value (rq_headers r) h = Some v -> ~ plain v -> rq_derive r (CHeader h) = Done None.
Proof. exact rq_opaque_missing. Qed.
Print Assumptions C39_opaque_header_missing_partial.
Theorem C39_mock_headers_bound_partial : forall (r s : mock) (c : canon_config) base si1 si2,
  line_request (mr_method r) (mr_url r) -> line_request (mr_method s) (mr_url s) ->
  (forall x, In x (cc_components c) -> ~ is_query_params x) ->
  canonicalize mr_rl r c = Done (Ok (base, si1)) -> canonicalize mr_rl s c = Done (Ok (base, si2)) ->
  forall h v w, In (CHeader h) (cc_components c) ->
  first_value (mr_headers r) h = Some v -> first_value (mr_headers s) h = Some w ->
  v = w \/ (~ plain v \/ v = []) /\ (~ plain w \/ w = []).
Proof. exact mr_headers_bound. Qed.
Print Assumptions C39_mock_headers_bound_partial.
Example C39_case : first_value [($"x-a", ["255"%char])] $"x-a" = Some ["255"%char] /\ ~ plain ["255"%char].
Proof. split; [reflexivity|]. intro H. apply plain_iff in H. discriminate. Qed.
Example C39_case_mock : line_request (mr_method m_req) (mr_url m_req) /\ (forall x, In x (cc_components s_cfg) -> ~ is_query_params x)
  /\ exists base si, canonicalize mr_rl m_req s_cfg = Done (Ok (base, si)).
Proof.
  split; [|split].
  - unfold line_request. cbn [m_req mr_method mr_url s_url u_scheme u_username u_password u_host u_path u_query u_fragment no_lf_opt].
    repeat split; now apply no_lf_lit.
  - intros x [<-|[<-|[<-|[]]]] (p & E); discriminate.
  - eexists _, _. vm_compute. reflexivity.
Qed.
