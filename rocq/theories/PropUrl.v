(** The URL parser and the targets of requests: C49 (with the parser), C75, C76. *)
From Verif Require Import SpecMore TargetFacts WitnessUrl LineFacts SignMore WitnessRound.

(** ** C75: the signed target is the requested one *)
(** What the parser makes of a text with a special scheme is specified in SpecUrl.v. *)
Theorem C75_parser_meets_the_url_standard : forall (hp : host_parser) (sp : scheme_parser) (s : str) (u : url), scheme_laws sp ->
  (url_parse hp sp s = Ok u /\ special (u_scheme u) <-> special_url hp s u)
  /\ (url_parse hp sp s = Err RelativeUrlWithoutBase <-> ~ has_scheme s).
Proof. exact parser_spec. Qed.
Print Assumptions C75_parser_meets_the_url_standard.
(** A target that starts with a slash is put behind the Host header. *)
Theorem C75_target_follows_host : forall (trace : bool) (hp : host_parser) (sp : scheme_parser) (s : str) (r : mock) (p : str),
  from_reader trace (url_parse hp sp) s = Done (Some r) -> mr_path r = "/"%char :: p ->
  exists v, first_value (mr_headers r) $"host" = Some v /\ special_url hp ($"http://" ++ v ++ mr_path r) (mr_url r).
Proof. exact read_target. Qed.
Print Assumptions C75_target_follows_host.
(** When the Host header is a host with or without a port, the path signed is the one
    written iff that is in normal form, and the query signed is the one written iff nothing in it
    needs encoding. *)
Theorem C75_path_as_written_iff : forall (trace : bool) (hp : host_parser) (sp : scheme_parser) (s : str) (r : mock) (v host : str) (port : option N) (p q f : str) (ps : params),
  from_reader trace (url_parse hp sp) s = Done (Some r) -> first_value (mr_headers r) $"host" = Some v ->
  plain_host hp v host port -> target_parts (mr_path r) p q f ->
  (mr_derive r (derived_named $"@path" ps) = Done (Some ("/"%char :: p)) <-> normal_target p).
Proof. exact read_path_iff. Qed.
Print Assumptions C75_path_as_written_iff.
Theorem C75_query_as_written_iff : forall (trace : bool) (hp : host_parser) (sp : scheme_parser) (s : str) (r : mock) (v host : str) (port : option N) (p q f : str) (ps : params),
  from_reader trace (url_parse hp sp) s = Done (Some r) -> first_value (mr_headers r) $"host" = Some v ->
  plain_host hp v host port -> target_parts (mr_path r) p q f ->
  (mr_derive r (derived_named $"@query" ps) = Done None <-> q = [])
  /\ (forall x, q = "?"%char :: x -> (mr_derive r (derived_named $"@query" ps) = Done (Some q) <-> Forall (stays query_set) x)).
Proof. exact read_query_iff. Qed.
Print Assumptions C75_query_as_written_iff.
Theorem C75_target_uri_as_written : forall (trace : bool) (hp : host_parser) (sp : scheme_parser) (s : str) (r : mock) (v host pt : str) (port : option N) (p q : str) (ps : params),
  from_reader trace (url_parse hp sp) s = Done (Some r) -> first_value (mr_headers r) $"host" = Some v ->
  plain_host hp v host port -> port_text port pt -> target_parts (mr_path r) p q [] ->
  normal_target p -> (forall x, q = "?"%char :: x -> Forall (stays query_set) x) ->
  mr_derive r (derived_named $"@scheme" ps) = Done (Some $"http")
  /\ mr_derive r (derived_named $"@target-uri" ps) = Done (Some ($"http://" ++ host ++ pt ++ mr_path r)).
Proof. exact read_as_written. Qed.
Print Assumptions C75_target_uri_as_written.
(** So signatures do not tell targets apart: putting "/." before the target leaves every
    component and every verdict as it was. *)
Theorem C75_targets_not_told_apart : forall (hp : host_parser) (sp : scheme_parser) (r : mock) (v host : str) (port : option N) (p q f : str),
  target_url (url_parse hp sp) (mr_path r) (mr_headers r) (mr_url r) -> first_value (mr_headers r) $"host" = Some v ->
  plain_host hp v host port -> target_parts (mr_path r) p q f ->
  let r' := retarget r ($"/." ++ mr_path r) in
  target_url (url_parse hp sp) (mr_path r') (mr_headers r') (mr_url r') /\ mr_path r' <> mr_path r
  /\ (forall c, mr_derive r' c = mr_derive r c)
  /\ forall vc env, verdict_of (verify mr_server r' vc env) = verdict_of (verify mr_server r vc env).
Proof. exact dot_retarget. Qed.
Print Assumptions C75_targets_not_told_apart.
(** The Host header can supply the path that is signed, or lose the first part of the target. *)
Definition u_text (target host : str) : str := $"GET " ++ target ++ $" HTTP/1.1" ++ [ch_lf] ++ $"host: " ++ host ++ [ch_lf].
Theorem C75_host_refuted : exists (hp : host_parser) (sp : scheme_parser) (r1 r2 : mock), host_laws hp /\ scheme_laws sp
  /\ from_reader true (url_parse hp sp) (u_text $"/public" $"a.org/admin?x#") = Done (Some r1)
  /\ mr_derive r1 (derived_named $"@path" []) = Done (Some $"/admin") /\ mr_derive r1 (derived_named $"@query" []) = Done (Some $"?x")
  /\ from_reader true (url_parse hp sp) (u_text $"/a.org/admin" []) = Done (Some r2)
  /\ mr_derive r2 (derived_named $"@path" []) = Done (Some $"/admin")
  /\ mr_derive r2 (derived_named $"@target-uri" []) = Done (Some $"http://a.org/admin").
Proof.
  exists toy_host, toy_schemes. eexists _, _. split; [exact toy_host_laws|]. split; [exact toy_schemes_laws|].
  split; [vm_compute; reflexivity|]. split; [vm_compute; reflexivity|]. split; [vm_compute; reflexivity|]. split; [vm_compute; reflexivity|]. split; vm_compute; reflexivity.
Qed.
Print Assumptions C75_host_refuted.
Definition u_req (target : str) : mock :=
  match from_reader true (url_parse toy_host toy_schemes) (u_text target $"A.org:8080") with Done (Some r) => r | _ => m_req end.
Example C75_case : let r := u_req $"/b/c?d=e" in
  from_reader true (url_parse toy_host toy_schemes) (u_text $"/b/c?d=e" $"A.org:8080") = Done (Some r)
  /\ first_value (mr_headers r) $"host" = Some $"A.org:8080"
  /\ plain_host toy_host $"A.org:8080" $"a.org" (Some 8080%N) /\ target_parts (mr_path r) $"b/c" $"?d=e" []
  /\ normal_target $"b/c" /\ Forall (stays query_set) $"d=e"
  /\ mr_derive r (derived_named $"@target-uri" []) = Done (Some $"http://a.org:8080/b/c?d=e")
  /\ mr_derive (u_req $"/x/../b/./c\d?d=e") (derived_named $"@path" []) = Done (Some $"/b/c/d")
  /\ from_reader true (url_parse toy_host toy_schemes) (u_text $"/" $"a b") = Panic.
Proof.
  cbv zeta. split; [vm_compute; reflexivity|]. split; [vm_compute; reflexivity|].
  assert (V : forall t, forallb (fun c => in_range 33 126 c && negb (url_slash c) && negb (existsb (Ascii.eqb c) $"?#@")) t = true ->
    Forall (fun c => (33 <= N_of_ascii c <= 126)%N /\ ~ slash c /\ ~ one_of "?#@" c) t).
  { intros t H. rewrite forallb_forall in H. apply Forall_forall. intros c I. specialize (H c I). rewrite !andb_true_iff, !negb_true_iff in H.
    destruct H as ((H1 & H2) & H3). unfold in_range, code in H1. split; [lia|]. split; [now apply slash_false|]. intro O. apply not_true_iff_false in H3.
    apply H3, existsb_exists. exists c. split; [exact O|apply Ascii.eqb_refl]. }
  split; [|split; [|split; [|split; [|split; [|split]]]]]; try (vm_compute; reflexivity).
  - exists $"A.org", $":8080". split; [reflexivity|]. split; [|split; [apply V; reflexivity|split; [reflexivity|]]].
    + assert (S : split_host false $"A.org:8080" = ($"A.org", $":8080")) by reflexivity. apply split_host_iff in S. destruct S as (_ & _ & S). split; [discriminate|exact S].
    + apply parse_port_iff; [right; now exists $"8080"|reflexivity].
  - split; [reflexivity|]. split; [repeat constructor; discriminate|]. split; [right; now exists $"d=e"|]. split; [cbn; intuition discriminate|]. split; [now left|].
    apply Forall_forall. intros c I. unfold low. vm_compute in I. repeat (destruct I as [<-|I]; [cbn; lia|]). destruct I.
  - apply as_written_iff, path_of_iff. reflexivity.
  - apply Forall_forall. intros c I. apply staysb_iff. vm_compute in I. repeat (destruct I as [<-|I]; [reflexivity|]). destruct I.
Qed.
(** C49 with the parser: which texts make reading panic. *)
Theorem C49_reading_panics_on_urls : forall (trace : bool) (hp : host_parser) (sp : scheme_parser) (s : str), scheme_laws sp ->
  (from_reader trace (url_parse hp sp) s = Panic <->
   exists r, frames s r /\ (~ loggable trace r \/
     ~ has_scheme (mr_path r)
     /\ exists host, first_value (mr_headers r) $"host" = Some host /\ Forall (fun c => visible c \/ c = ascii_of_nat 9) host
                     /\ forall u, ~ special_url hp ($"http://" ++ host ++ mr_path r) u)).
Proof. exact read_panics_url. Qed.
Print Assumptions C49_reading_panics_on_urls.

(** ** C76: @target-uri determines the whole URL *)
(** The text of a URL stands for that URL, *)
Theorem C76_text_stands_for_its_url : forall (hp : host_parser) (s t : str) (u : url), host_laws hp ->
  special_url hp s u -> url_text u t -> special_url hp t u.
Proof. exact reparse. Qed.
Print Assumptions C76_text_stands_for_its_url.
(** so equal texts are texts of the same URL, *)
Theorem C76_target_uri_determines_the_url : forall (hp : host_parser) (s1 s2 t : str) (u1 u2 : url), host_laws hp ->
  special_url hp s1 u1 -> special_url hp s2 u2 -> url_text u1 t -> url_text u2 t -> u1 = u2.
Proof. exact text_determines. Qed.
Print Assumptions C76_target_uri_determines_the_url.
(** and requests with the same @target-uri agree on all derived components but @method. *)
Theorem C76_validator_requests : forall (trace : bool) (hp : host_parser) (sp : scheme_parser) (s1 s2 : str) (r1 r2 : mock) (p1 p2 : params), host_laws hp -> scheme_laws sp ->
  from_reader trace (url_parse hp sp) s1 = Done (Some r1) -> special (u_scheme (mr_url r1)) ->
  from_reader trace (url_parse hp sp) s2 = Done (Some r2) -> special (u_scheme (mr_url r2)) ->
  mr_derive r1 (derived_named $"@target-uri" p1) = mr_derive r2 (derived_named $"@target-uri" p2) ->
  mr_url r1 = mr_url r2 /\ forall d, it_bare (dc_item d) <> BString $"@method" -> mr_derive r1 (CDerived d) = mr_derive r2 (CDerived d).
Proof. exact read_same_uri. Qed.
Print Assumptions C76_validator_requests.
Theorem C76_reqwest_requests : forall (hp : host_parser) (s1 s2 : str) (r1 r2 : rq) (p1 p2 : params), host_laws hp ->
  special_url hp s1 (rq_url r1) -> special_url hp s2 (rq_url r2) ->
  rq_derive r1 (derived_named $"@target-uri" p1) = rq_derive r2 (derived_named $"@target-uri" p2) ->
  rq_url r1 = rq_url r2 /\ forall d, it_bare (dc_item d) <> BString $"@method" -> rq_derive r1 (CDerived d) = rq_derive r2 (CDerived d).
Proof. exact rq_same_uri. Qed.
Print Assumptions C76_reqwest_requests.
(** A request accepted with the signature of a reqwest request, or of a request of the
    validator, that covers @target-uri has the URL of that request, or there is a forgery. *)
Theorem C76_accepted_from_reqwest : forall (cr : client_request_like rq) (r r' : rq) (c : signing_config) (env : sign_env) (s : mock) (vc : verifying_config)
  (venv : verify_env) (kid : str) (ps : params) (hp : host_parser) (t1 t2 : str), cr = rq_async \/ cr = rq_blocking -> host_laws hp ->
  sys_clock_ok (se_sys env) -> sign cr r c env = Done (r', Ok tt) ->
  Forall component_rep (sc_components c) -> sc_nonce c <> Some [] ->
  mr_derive s (CHeader $"signature-input") = rq_derive r' (CHeader $"signature-input") ->
  mr_derive s (CHeader $"signature") = rq_derive r' (CHeader $"signature") ->
  ~ In "="%char (sc_label c) -> plain (sc_label c) ->
  (forall m, let sig := sg_sign (sc_signature c) (se_rnd env) m in plain sig /\ clean_signature sig) ->
  no_lf (rq_method r) -> no_lf (mr_method s) -> (forall q, In q (sc_components c) -> ~ is_query_params q) ->
  special_url hp t1 (rq_url r) -> special_url hp t2 (mr_url s) -> In (derived_named $"@target-uri" ps) (sc_components c) ->
  verify mr_server s vc venv = Done (Ok (tt, kid)) ->
  mr_url s = rq_url r
  \/ exists m1 m2 k, two_bases (signed_view rq_rl r r') (mr_derive s) c (seconds (se_sys env)) m1 m2
      /\ In k (vc_keys vc (sc_key_id c)) /\ vf_verify k m2 (sg_sign (sc_signature c) (se_rnd env) m1) = true.
Proof. exact accepted_rq. Qed.
Print Assumptions C76_accepted_from_reqwest.
Theorem C76_accepted_from_validator : forall (r r' : mock) (c : signing_config) (env : sign_env) (s : mock) (vc : verifying_config)
  (venv : verify_env) (kid : str) (ps : params) (hp : host_parser) (t1 t2 : str), host_laws hp ->
  sys_clock_ok (se_sys env) -> sign mr_client r c env = Done (r', Ok tt) ->
  Forall component_rep (sc_components c) -> sc_nonce c <> Some [] ->
  mr_derive s (CHeader $"signature-input") = mr_derive r' (CHeader $"signature-input") ->
  mr_derive s (CHeader $"signature") = mr_derive r' (CHeader $"signature") ->
  ~ In "="%char (sc_label c) -> plain (sc_label c) ->
  (forall m, let sig := sg_sign (sc_signature c) (se_rnd env) m in plain sig /\ clean_signature sig) ->
  no_lf (mr_method r) -> no_lf (mr_method s) -> (forall q, In q (sc_components c) -> ~ is_query_params q) ->
  special_url hp t1 (mr_url r) -> special_url hp t2 (mr_url s) -> In (derived_named $"@target-uri" ps) (sc_components c) ->
  verify mr_server s vc venv = Done (Ok (tt, kid)) ->
  mr_url s = mr_url r
  \/ exists m1 m2 k, two_bases (signed_view mr_rl r r') (mr_derive s) c (seconds (se_sys env)) m1 m2
      /\ In k (vc_keys vc (sc_key_id c)) /\ vf_verify k m2 (sg_sign (sc_signature c) (se_rnd env) m1) = true.
Proof. exact accepted_mr. Qed.
Print Assumptions C76_accepted_from_validator.
(** Parsed URLs keep the request line on one line, as C37 and C39 ask. *)
Theorem C76_parsed_urls_have_no_line_feeds : forall (hp : host_parser) (s m : str) (u : url), host_laws hp ->
  special_url hp s u -> no_lf m -> line_request m u.
Proof. exact special_line. Qed.
Print Assumptions C76_parsed_urls_have_no_line_feeds.
Definition u_sconf : signing_config :=
  sc_set_add_date (sc_set_compute_digest (sc_set_components m_sconf [derived_named $"@target-uri" []; CHeader $"host"]) false) false.
Definition u_vconf : verifying_config := vc_set_require_digest m_vconf false.
Definition u_signed : mock := match sign mr_client (u_req $"/b/c?d=e") u_sconf m_senv with Done (r, _) => r | Panic => m_req end.
Definition u_moved (target : str) : mock := MockReq HTTP_11 $"GET" (mr_url (u_req target)) target (mr_headers u_signed) None.
Example C76_case :
  sign mr_client (u_req $"/b/c?d=e") u_sconf m_senv = Done (u_signed, Ok tt)
  /\ Forall component_rep (sc_components u_sconf) /\ (forall q, In q (sc_components u_sconf) -> ~ is_query_params q)
  /\ (exists t1 t2, special_url toy_host t1 (mr_url (u_req $"/b/c?d=e")) /\ special_url toy_host t2 (mr_url (u_moved $"/b/./c?d=e")))
  /\ verify mr_server (u_moved $"/b/./c?d=e") u_vconf m_venv = Done (Ok (tt, $"k1"))
  /\ verify mr_server (u_moved $"/b/c/?d=e") u_vconf m_venv = Done (Err tt)
  /\ mr_derive (u_moved $"/b/c/?d=e") (CHeader $"signature") = mr_derive u_signed (CHeader $"signature").
Proof.
  split; [vm_compute; reflexivity|]. split; [do 2 (constructor; [apply component_repb_rep; vm_compute; reflexivity|]); constructor|].
  split; [intros q [<-|[<-|[]]] [p E]; discriminate E|]. split; [|split; [vm_compute; reflexivity|split; vm_compute; reflexivity]].
  exists $"http://A.org:8080/b/c?d=e", $"http://A.org:8080/b/./c?d=e".
  split; apply (http_text toy_host toy_schemes $"//A.org:8080/b/c?d=e") || apply (http_text toy_host toy_schemes $"//A.org:8080/b/./c?d=e"); vm_compute; reflexivity.
Qed.
