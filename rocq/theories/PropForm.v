(** The forms of request targets, and URLs with any scheme: C98. *)
From Verif Require Import SpecOther SpecLine UrlFacts FormFacts OtherNormal NameFacts TargetFacts SpecMore WitnessUrl WitnessRound LineFacts MockFacts ReqFacts SignMore.

(** ** C98: every form of target *)
(** What the parser makes of a text whose scheme is not special is specified in SpecOther.v. *)
Theorem C98_parser_meets_the_url_standard : forall (hp : host_parser) (fp : str -> result url url_error) (s : str) (u : url), file_laws fp ->
  (url_parse hp (parse_other fp) s = Ok u /\ ~ special (u_scheme u) /\ u_scheme u <> $"file" <-> other_url s u).
Proof. exact other_parse_iff. Qed.
Print Assumptions C98_parser_meets_the_url_standard.
(** So what C49, C75 and C76 ask of the parser of other schemes holds. *)
Theorem C98_other_schemes_follow_the_laws : forall fp : str -> result url url_error, file_laws fp -> scheme_laws (parse_other fp).
Proof. exact other_laws. Qed.
Print Assumptions C98_other_schemes_follow_the_laws.
(** A target with a scheme is the URL; the Host header does not count. *)
Theorem C98_target_with_a_scheme : forall (trace : bool) (hp : host_parser) (fp : str -> result url url_error) (s : str) (r : mock), file_laws fp ->
  from_reader trace (url_parse hp (parse_other fp)) s = Done (Some r) -> has_scheme (mr_path r) ->
  special_url hp (mr_path r) (mr_url r) \/ other_url (mr_path r) (mr_url r) \/ u_scheme (mr_url r) = $"file".
Proof. exact read_absolute. Qed.
Print Assumptions C98_target_with_a_scheme.
(** Any other target is put behind the Host header, without anything between them; *)
Theorem C98_target_without_a_scheme : forall (trace : bool) (hp : host_parser) (sp : scheme_parser) (s : str) (r : mock), scheme_laws sp ->
  from_reader trace (url_parse hp sp) s = Done (Some r) -> ~ has_scheme (mr_path r) ->
  exists v, first_value (mr_headers r) $"host" = Some v /\ special_url hp ($"http://" ++ v ++ mr_path r) (mr_url r).
Proof. exact read_relative. Qed.
Print Assumptions C98_target_without_a_scheme.
(** where the header ends and the target begins does not count. *)
Theorem C98_only_the_join_counts : forall (t1 t2 : bool) (hp : host_parser) (sp : scheme_parser) (s1 s2 : str) (r1 r2 : mock) (v1 v2 : str), scheme_laws sp ->
  from_reader t1 (url_parse hp sp) s1 = Done (Some r1) -> from_reader t2 (url_parse hp sp) s2 = Done (Some r2) ->
  ~ has_scheme (mr_path r1) -> ~ has_scheme (mr_path r2) ->
  first_value (mr_headers r1) $"host" = Some v1 -> first_value (mr_headers r2) $"host" = Some v2 ->
  v1 ++ mr_path r1 = v2 ++ mr_path r2 ->
  mr_url r1 = mr_url r2 /\ forall d, it_bare (dc_item d) <> BString $"@method" -> mr_derive r1 (CDerived d) = mr_derive r2 (CDerived d).
Proof. exact join_only. Qed.
Print Assumptions C98_only_the_join_counts.
(** The authority-form (name, colon, port) is read as a URL with that name as its scheme, *)
Theorem C98_authority_form : forall (trace : bool) (hp : host_parser) (fp : str -> result url url_error) (s : str) (r : mock) (n port : str), file_laws fp ->
  frames s r -> loggable trace r -> authority_form (mr_path r) n port ->
  let r' := with_url r (Url n false [] None None None port None None) in
  from_reader trace (url_parse hp (parse_other fp)) s = Done (Some r')
  /\ forall p, mr_derive r' (derived_named $"@scheme" p) = Done (Some n) /\ mr_derive r' (derived_named $"@path" p) = Done (Some port)
     /\ mr_derive r' (derived_named $"@query" p) = Done None
     /\ mr_derive r' (derived_named $"@request-target" p) = Done (Some (n ++ $":" ++ port))
     /\ mr_derive r' (derived_named $"@target-uri" p) = Done (Some (n ++ $":" ++ port)).
Proof. exact read_authority_form. Qed.
Print Assumptions C98_authority_form.
(** a target that is no path panics behind a Host header with a port unless it goes on with digits, *)
Theorem C98_port_then_target_panics : forall (trace : bool) (hp : host_parser) (sp : scheme_parser) (s : str) (r : mock) (h ds x more : str), scheme_laws sp ->
  frames s r -> ~ has_scheme (mr_path r) -> first_value (mr_headers r) $"host" = Some (h ++ ":"%char :: ds) ->
  host_text h (":"%char :: ds) -> plain_part (h ++ ":"%char :: ds) ->
  mr_path r = x ++ more -> plain_part x -> (exists c, In c x /\ ~ digit c) ->
  (more = [] \/ exists c m, more = c :: m /\ (slash c \/ one_of "?#" c)) -> Forall (fun c => ~ low c) more ->
  from_reader trace (url_parse hp sp) s = Panic.
Proof. exact port_then_target. Qed.
Print Assumptions C98_port_then_target_panics.
(** and the asterisk-form becomes the end of the host. *)
Theorem C98_asterisk_form : forall (trace : bool) (hp : host_parser) (sp : scheme_parser) (s : str) (r : mock) (v : str), scheme_laws sp ->
  frames s r -> loggable trace r -> mr_path r = $"*" -> first_value (mr_headers r) $"host" = Some v -> v <> [] -> plain_part v -> ~ In ":"%char v ->
  from_reader trace (url_parse hp sp) s =
    match hp (v ++ $"*") with
    | Some host => Done (Some (with_url r (Url $"http" true [] None (Some host) None $"/" None None)))
    | None => Panic
    end.
Proof. exact read_asterisk. Qed.
Print Assumptions C98_asterisk_form.

(** ** Whatever the scheme, the text determines the URL *)
Theorem C98_text_stands_for_its_url : forall (hp : host_parser) (s t : str) (u : url), host_laws hp ->
  any_url hp s u -> url_text u t -> any_url hp t u.
Proof. exact any_again. Qed.
Print Assumptions C98_text_stands_for_its_url.
Theorem C98_target_uri_determines_the_url : forall (hp : host_parser) (s1 s2 t : str) (u1 u2 : url), host_laws hp ->
  any_url hp s1 u1 -> any_url hp s2 u2 -> url_text u1 t -> url_text u2 t -> u1 = u2.
Proof. exact any_determines. Qed.
Print Assumptions C98_target_uri_determines_the_url.
Theorem C98_validator_requests : forall (t1 t2 : bool) (hp : host_parser) (fp : str -> result url url_error) (s1 s2 : str) (r1 r2 : mock) (p1 p2 : params), host_laws hp -> file_laws fp ->
  from_reader t1 (url_parse hp (parse_other fp)) s1 = Done (Some r1) -> u_scheme (mr_url r1) <> $"file" ->
  from_reader t2 (url_parse hp (parse_other fp)) s2 = Done (Some r2) -> u_scheme (mr_url r2) <> $"file" ->
  mr_derive r1 (derived_named $"@target-uri" p1) = mr_derive r2 (derived_named $"@target-uri" p2) ->
  mr_url r1 = mr_url r2 /\ forall d, it_bare (dc_item d) <> BString $"@method" -> mr_derive r1 (CDerived d) = mr_derive r2 (CDerived d).
Proof. exact read_same_any. Qed.
Print Assumptions C98_validator_requests.
(** A request accepted with a signature that covers @target-uri has the URL of the signed
    request, or there is a forgery. *)
Theorem C98_accepted_from_reqwest : forall (cr : client_request_like rq) (r r' : rq) (c : signing_config) (env : sign_env) (s : mock) (vc : verifying_config)
  (venv : verify_env) (kid : str) (ps : params) (hp : host_parser) (t1 t2 : str), cr = rq_async \/ cr = rq_blocking -> host_laws hp ->
  sys_clock_ok (se_sys env) -> sign cr r c env = Done (r', Ok tt) ->
  Forall component_rep (sc_components c) -> sc_nonce c <> Some [] ->
  mr_derive s (CHeader $"signature-input") = rq_derive r' (CHeader $"signature-input") ->
  mr_derive s (CHeader $"signature") = rq_derive r' (CHeader $"signature") ->
  ~ In "="%char (sc_label c) -> plain (sc_label c) ->
  (forall m, let sig := sg_sign (sc_signature c) (se_rnd env) m in plain sig /\ clean_signature sig) ->
  no_lf (rq_method r) -> no_lf (mr_method s) -> (forall q, In q (sc_components c) -> ~ is_query_params q) ->
  any_url hp t1 (rq_url r) -> any_url hp t2 (mr_url s) -> In (derived_named $"@target-uri" ps) (sc_components c) ->
  verify mr_server s vc venv = Done (Ok (tt, kid)) ->
  mr_url s = rq_url r
  \/ exists m1 m2 k, two_bases (signed_view rq_rl r r') (mr_derive s) c (seconds (se_sys env)) m1 m2
      /\ In k (vc_keys vc (sc_key_id c)) /\ vf_verify k m2 (sg_sign (sc_signature c) (se_rnd env) m1) = true.
Proof. exact any_rq. Qed.
Print Assumptions C98_accepted_from_reqwest.
Theorem C98_accepted_from_validator : forall (r r' : mock) (c : signing_config) (env : sign_env) (s : mock) (vc : verifying_config)
  (venv : verify_env) (kid : str) (ps : params) (hp : host_parser) (t1 t2 : str), host_laws hp ->
  sys_clock_ok (se_sys env) -> sign mr_client r c env = Done (r', Ok tt) ->
  Forall component_rep (sc_components c) -> sc_nonce c <> Some [] ->
  mr_derive s (CHeader $"signature-input") = mr_derive r' (CHeader $"signature-input") ->
  mr_derive s (CHeader $"signature") = mr_derive r' (CHeader $"signature") ->
  ~ In "="%char (sc_label c) -> plain (sc_label c) ->
  (forall m, let sig := sg_sign (sc_signature c) (se_rnd env) m in plain sig /\ clean_signature sig) ->
  no_lf (mr_method r) -> no_lf (mr_method s) -> (forall q, In q (sc_components c) -> ~ is_query_params q) ->
  any_url hp t1 (mr_url r) -> any_url hp t2 (mr_url s) -> In (derived_named $"@target-uri" ps) (sc_components c) ->
  verify mr_server s vc venv = Done (Ok (tt, kid)) ->
  mr_url s = mr_url r
  \/ exists m1 m2 k, two_bases (signed_view mr_rl r r') (mr_derive s) c (seconds (se_sys env)) m1 m2
      /\ In k (vc_keys vc (sc_key_id c)) /\ vf_verify k m2 (sg_sign (sc_signature c) (se_rnd env) m1) = true.
Proof. exact any_mr. Qed.
Print Assumptions C98_accepted_from_validator.
Theorem C98_parsed_urls_have_no_line_feeds : forall (hp : host_parser) (s m : str) (u : url), host_laws hp ->
  any_url hp s u -> no_lf m -> line_request m u.
Proof. exact any_line. Qed.
Print Assumptions C98_parsed_urls_have_no_line_feeds.

(** ** Cases *)
Definition f_hosts : host_parser := url_host ascii_idna.
Definition f_files : str -> result url url_error := fun _ => Err UrlOther.
Definition f_parse : url_parser := url_parse f_hosts (parse_other f_files).
Definition f_text (method target host : str) : str := method ++ $" " ++ target ++ $" HTTP/1.1" ++ [ch_lf] ++ $"host: " ++ host ++ [ch_lf].
Lemma f_hosts_laws : host_laws f_hosts. Proof. exact (url_host_laws ascii_idna ascii_idna_laws). Qed.
Lemma f_files_laws : file_laws f_files. Proof. exact no_file. Qed.
Lemma f_other (s : str) (u : url) : f_parse s = Ok u -> default_port (u_scheme u) = None -> u_scheme u <> $"file" -> other_url s u.
Proof. intros H D N. apply (other_parse_iff f_hosts f_files _ _ f_files_laws). split; [exact H|]. split; [|exact N]. rewrite UrlFacts.special_iff. congruence. Qed.
Definition f_rich : url := Url $"foo" true $"u" (Some $"p") (Some $"h%01") (Some 80%N) $"/\x" (Some $"a'%20b") (Some $"f").
Definition f_rooted : url := Url $"foo" false [] None None None $"//x" None None.
Definition f_opaque : url := Url $"mailto" false [] None None None $"a b\c" (Some $"d") None.
Definition f_bare : url := Url $"foo" true [] None None None [] None None.
Example C98_parser_case :
  other_url ($" foO://u:p@h" ++ [ascii_of_nat 1] ++ $":080\x?a' b#f") f_rich
  /\ other_url $"foo:/y/..//x" f_rooted /\ other_url $"foo:/.//x" f_rooted /\ url_to_string f_rooted = $"foo:/.//x"
  /\ other_url $"MAILTO:a b\c?d" f_opaque /\ other_url $"foo://:@" f_bare
  /\ (forall u, ~ other_url $"foo://@/" u) /\ (forall u, ~ other_url $"foo://a^b/" u) /\ (forall u, ~ other_url $"foo://a:1x/" u).
Proof.
  assert (No : forall s, (exists e, f_parse s = Err e) -> forall u, ~ other_url s u).
  { intros s (e & E) u U. apply (other_parse_iff f_hosts f_files _ _ f_files_laws) in U. unfold f_parse in E. destruct U as (U & _). congruence. }
  repeat split; try (apply f_other; [vm_compute; reflexivity|vm_compute; reflexivity|discriminate]); apply No; eexists; vm_compute; reflexivity.
Qed.
Definition f_read (text : str) : mock := match from_reader true f_parse text with Done (Some r) => r | _ => m_req end.
Lemma f_frames (text : str) : match from_reader true f_parse text with Done (Some _) => True | _ => False end ->
  from_reader true f_parse text = Done (Some (f_read text)) /\ frames text (f_read text) /\ loggable true (f_read text).
Proof.
  unfold f_read. destruct (from_reader true f_parse text) as [[r|]|] eqn:E; try contradiction. intros _. split; [reflexivity|]. apply read_accepts in E. tauto.
Qed.
Lemma f_scheme (s sch rest : str) : parse_scheme (clean_input s) = Some (sch, rest) -> has_scheme s.
Proof. intro P. apply parse_scheme_iff in P. destruct P as (x & Ex & Sx & _). exists (clean_input s), x, rest. split; [now apply clean_iff|]. auto. Qed.
Lemma f_relative (s : str) : f_parse s = Err RelativeUrlWithoutBase -> ~ has_scheme s.
Proof. intro E. apply (parser_spec f_hosts (parse_other f_files) s (Url [] true [] None None None [] None None)); [now apply other_laws, f_files_laws|exact E]. Qed.
Definition f_absolute : str := f_text $"GET" $"HTTP://B.org/x?y" $"a.org".
Definition f_join1 : str := f_text $"GET" $"/public" $"a.org/admin".
Definition f_join2 : str := f_text $"GET" $"/admin/public" $"a.org".
Example C98_targets_case :
  from_reader true f_parse f_absolute = Done (Some (f_read f_absolute)) /\ has_scheme (mr_path (f_read f_absolute))
  /\ url_to_string (mr_url (f_read f_absolute)) = $"http://b.org/x?y"
  /\ from_reader true f_parse f_join1 = Done (Some (f_read f_join1)) /\ from_reader true f_parse f_join2 = Done (Some (f_read f_join2))
  /\ ~ has_scheme (mr_path (f_read f_join1)) /\ ~ has_scheme (mr_path (f_read f_join2))
  /\ first_value (mr_headers (f_read f_join1)) $"host" = Some $"a.org/admin" /\ first_value (mr_headers (f_read f_join2)) $"host" = Some $"a.org"
  /\ mr_path (f_read f_join1) = $"/public" /\ mr_path (f_read f_join2) = $"/admin/public".
Proof.
  split; [vm_compute; reflexivity|]. split; [eapply f_scheme; vm_compute; reflexivity|]. split; [vm_compute; reflexivity|].
  split; [vm_compute; reflexivity|]. split; [vm_compute; reflexivity|]. split; [apply f_relative; vm_compute; reflexivity|]. split; [apply f_relative; vm_compute; reflexivity|].
  repeat split; vm_compute; reflexivity.
Qed.
Definition f_connect : str := f_text $"CONNECT" $"Example.com:443" $"example.com:443".
Lemma f_name_ok (s : str) : forallb (fun c => is_alpha c || is_digit c || Ascii.eqb c "+" || Ascii.eqb c "-" || Ascii.eqb c ".") s = true ->
  match s with c :: _ => is_alpha c = true | [] => False end -> scheme_text s.
Proof.
  intros F A. split.
  - destruct s as [|c s]; [contradiction|]. exists c, s. split; [reflexivity|]. now apply letter_iff.
  - apply (forallb_iff _ _ _ scheme_char_iff). exact F.
Qed.
Example C98_authority_form_case :
  frames f_connect (f_read f_connect) /\ loggable true (f_read f_connect) /\ authority_form (mr_path (f_read f_connect)) $"example.com" $"443".
Proof.
  destruct (f_frames f_connect) as (_ & F & L); [vm_compute; exact I|]. split; [exact F|]. split; [exact L|].
  replace (mr_path (f_read f_connect)) with $"Example.com:443" by (vm_compute; reflexivity). exists $"Example.com". split; [reflexivity|].
  split; [apply f_name_ok; reflexivity|]. split; [apply Forall2_lower; reflexivity|]. split; [intros (p & [H|[H|[H|[H|[H|[]]]]]]); discriminate H|]. split; [discriminate|].
  repeat constructor; unfold digit; cbn; lia.
Qed.
Definition f_star : str := f_text $"OPTIONS" $"*" $"a.org".
Lemma f_plain (s : str) : forallb (fun c => (33 <=? N_of_ascii c)%N && (N_of_ascii c <=? 126)%N && negb (existsb (Ascii.eqb c) $"/\?#@")) s = true -> plain_part s.
Proof.
  intro H. unfold plain_part. apply Forall_forall. intros c I. rewrite forallb_forall in H. apply H in I. rewrite !andb_true_iff in I. destruct I as ((A & B) & C).
  split; [lia|]. apply negb_true_iff in C. assert (X : forall d, In d $"/\?#@" -> c <> d).
  { intros d Id E. subst d. assert (existsb (Ascii.eqb c) $"/\?#@" = true) by (apply existsb_exists; exists c; now rewrite Ascii.eqb_refl). congruence. }
  split; [intros [E|E]; revert E; apply X; cbn; tauto|]. unfold one_of. cbn [list_ascii_of_string In]. intros [E|[E|[E|[]]]]; symmetry in E; revert E; apply X; cbn; tauto.
Qed.
Example C98_asterisk_form_case :
  frames f_star (f_read f_star) /\ loggable true (f_read f_star) /\ mr_path (f_read f_star) = $"*"
  /\ first_value (mr_headers (f_read f_star)) $"host" = Some $"a.org" /\ plain_part $"a.org" /\ ~ In ":"%char $"a.org".
Proof.
  destruct (f_frames f_star) as (_ & F & L); [vm_compute; exact I|]. split; [exact F|]. split; [exact L|]. split; [vm_compute; reflexivity|]. split; [vm_compute; reflexivity|].
  split; [apply f_plain; reflexivity|]. cbn. intuition discriminate.
Qed.
(** A target that is an address and port, for the same address and port. *)
Definition f_address : str := f_text $"CONNECT" $"10.0.0.1:443" $"10.0.0.1:443".
Definition f_with (text : str) : mock := match from_reader true (fun _ => Ok f_bare) text with Done (Some r) => r | _ => m_req end.
Example C98_port_then_target_case :
  frames f_address (f_with f_address) /\ ~ has_scheme (mr_path (f_with f_address))
  /\ first_value (mr_headers (f_with f_address)) $"host" = Some ($"10.0.0.1" ++ ":"%char :: $"443")
  /\ host_text $"10.0.0.1" $":443" /\ plain_part $"10.0.0.1:443" /\ mr_path (f_with f_address) = $"10.0.0.1:443" ++ []
  /\ exists c, In c $"10.0.0.1:443" /\ ~ digit c.
Proof.
  assert (E : from_reader true (fun _ => Ok f_bare) f_address = Done (Some (f_with f_address))) by (vm_compute; reflexivity).
  split; [apply read_accepts in E; tauto|]. split; [apply f_relative; vm_compute; reflexivity|]. split; [vm_compute; reflexivity|].
  split; [split; [discriminate|]; exists false; split; [|now right]; repeat (apply br_other; [discriminate|discriminate|discriminate|]); constructor|].
  split; [apply f_plain; reflexivity|]. split; [vm_compute; reflexivity|]. exists "."%char. split; [cbn; tauto|]. unfold digit. cbn. lia.
Qed.
(** A signed request whose target is a URL with another scheme, accepted under another
    spelling of it and rejected under another URL. *)
Definition f_req (target : str) : mock := f_read (f_text $"GET" target $"a.org").
Definition f_sconf : signing_config :=
  sc_set_add_date (sc_set_compute_digest (sc_set_components m_sconf [derived_named $"@target-uri" []; CHeader $"host"]) false) false.
Definition f_vconf : verifying_config := vc_set_require_digest m_vconf false.
Definition f_signed : mock := match sign mr_client (f_req $"foo:/.//b?c") f_sconf m_senv with Done (r, _) => r | Panic => m_req end.
Definition f_moved (target : str) : mock := MockReq HTTP_11 $"GET" (mr_url (f_req target)) target (mr_headers f_signed) None.
Example C98_accepted_case :
  sign mr_client (f_req $"foo:/.//b?c") f_sconf m_senv = Done (f_signed, Ok tt)
  /\ (exists t1 t2, any_url f_hosts t1 (mr_url (f_req $"foo:/.//b?c")) /\ any_url f_hosts t2 (mr_url (f_moved $"FOO:/a/..//b?c")))
  /\ verify mr_server (f_moved $"FOO:/a/..//b?c") f_vconf m_venv = Done (Ok (tt, $"k1"))
  /\ verify mr_server (f_moved $"foo:/b?c") f_vconf m_venv = Done (Err tt)
  /\ verify mr_server (f_moved $"foo://b?c") f_vconf m_venv = Done (Err tt).
Proof.
  split; [vm_compute; reflexivity|]. split; [|repeat split; vm_compute; reflexivity].
  exists $"foo:/.//b?c", $"FOO:/a/..//b?c". split; right; (apply f_other; [vm_compute; reflexivity|vm_compute; reflexivity|vm_compute; discriminate]).
Qed.

(** Expected (RFC 7230, sections 5.3 and 5.5; draft-ietf-httpbis-message-signatures-08, section 2.3),
    but false: the authority-form and the asterisk-form have no path and do not change the host,
    and a request in either form can be read. *)
Theorem C98_connect_refuted : ~ forall (hp : host_parser) (fp : str -> result url url_error) (s : str) (r : mock), host_laws hp -> file_laws fp ->
  from_reader true (url_parse hp (parse_other fp)) s = Done (Some r) -> mr_method r = $"CONNECT" ->
  In (u_scheme (mr_url r)) [$"http"; $"https"] /\ u_path (mr_url r) <> $"443".
Proof.
  intro H. destruct (f_frames f_connect) as (F & _); [vm_compute; exact I|].
  destruct (H f_hosts f_files f_connect (f_read f_connect) f_hosts_laws f_files_laws F) as (_ & N); [vm_compute; reflexivity|]. apply N. vm_compute. reflexivity.
Qed.
Print Assumptions C98_connect_refuted.
Theorem C98_every_form_is_read_refuted : ~ forall (hp : host_parser) (fp : str -> result url url_error) (s : str) (r : mock), host_laws hp -> file_laws fp ->
  frames s r -> loggable true r -> In (mr_path r) [$"*"; $"10.0.0.1:443"] -> (exists h, first_value (mr_headers r) $"host" = Some h) ->
  from_reader true (url_parse hp (parse_other fp)) s <> Panic.
Proof.
  intro H. assert (E : from_reader true (fun _ => Ok f_bare) f_address = Done (Some (f_with f_address))) by (vm_compute; reflexivity). apply read_accepts in E. destruct E as (F & L & _).
  apply (H f_hosts f_files f_address (f_with f_address) f_hosts_laws f_files_laws F L); [right; left; vm_compute; reflexivity|eexists; vm_compute; reflexivity|]. vm_compute. reflexivity.
Qed.
Print Assumptions C98_every_form_is_read_refuted.
Theorem C98_asterisk_keeps_the_host_refuted : ~ forall (hp : host_parser) (sp : scheme_parser) (s : str) (r : mock) (v : str), host_laws hp -> scheme_laws sp ->
  from_reader true (url_parse hp sp) s = Done (Some r) -> mr_path r = $"*" -> first_value (mr_headers r) $"host" = Some v ->
  u_host (mr_url r) = Some v.
Proof.
  intro H. destruct (f_frames f_star) as (F & _); [vm_compute; exact I|].
  assert (X : u_host (mr_url (f_read f_star)) = Some $"a.org"); [|vm_compute in X; discriminate X].
  apply (H f_hosts (parse_other f_files) f_star (f_read f_star) $"a.org" f_hosts_laws (other_laws _ f_files_laws) F); vm_compute; reflexivity.
Qed.
Print Assumptions C98_asterisk_keeps_the_host_refuted.
