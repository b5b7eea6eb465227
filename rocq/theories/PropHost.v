(** Host names: C79. *)
From Verif Require Import SpecMore TargetFacts HostTextFacts WitnessUrl LineFacts SignMore WitnessRound.

(** ** C79: a host has one spelling *)
(** What texts stand for which hosts, and the text of a host, are specified in SpecHost.v. *)
Theorem C79_host_parser_meets_the_url_standard : forall (idna : str -> option str) (s t : str),
  url_host idna s = Some t <-> exists h, host_reads idna s h /\ host_written h t.
Proof. exact url_host_written. Qed.
Print Assumptions C79_host_parser_meets_the_url_standard.
(** A text stands for at most one host, and a host has exactly one text, *)
Theorem C79_one_host_one_text : forall (idna : str -> option str) (s : str) (h : host), host_reads idna s h ->
  (exists t, host_written h t /\ forall t', host_written h t' -> t' = t) /\ (forall h', host_reads idna s h' -> h' = h).
Proof. exact written_reads_host. Qed.
Print Assumptions C79_one_host_one_text.
(** which stands for that host, *)
Theorem C79_text_stands_for_its_host : forall (idna : str -> option str) (s t : str) (h : host), idna_laws idna ->
  host_reads idna s h -> host_written h t -> host_reads idna t h.
Proof. exact written_reads. Qed.
Print Assumptions C79_text_stands_for_its_host.
(** so different hosts have different texts. *)
Theorem C79_texts_tell_hosts_apart : forall (idna : str -> option str) (s1 s2 t : str) (g h : host), idna_laws idna ->
  host_reads idna s1 g -> host_reads idna s2 h -> host_written g t -> host_written h t -> g = h.
Proof. exact written_inj. Qed.
Print Assumptions C79_texts_tell_hosts_apart.
(** Hence the parser has the properties C76 and C77 ask of it. *)
Theorem C79_host_parser_has_the_laws : forall (idna : str -> option str), idna_laws idna -> host_laws (url_host idna).
Proof. exact url_host_laws. Qed.
Print Assumptions C79_host_parser_has_the_laws.
(** Every URL addresses one host, *)
Theorem C79_urls_address_one_host : forall (idna : str -> option str) (s : str) (u : url), special_url (url_host idna) s u ->
  (exists h t, addresses idna s h /\ host_written h t /\ u_host u = Some t)
  /\ (forall g h, addresses idna s g -> addresses idna s h -> g = h).
Proof. intros idna s u H. split; [exact (addresses_url idna s u H)|exact (addresses_fun idna s)]. Qed.
Print Assumptions C79_urls_address_one_host.
(** and the @authority of reqwest requests is the same iff they are for the same host,
    however the URLs spell it. *)
Theorem C79_authority_tells_hosts_apart : forall (idna : str -> option str) (r1 r2 : rq) (s1 s2 : str) (h1 h2 : host) (p1 p2 : params), idna_laws idna ->
  special_url (url_host idna) s1 (rq_url r1) -> special_url (url_host idna) s2 (rq_url r2) -> addresses idna s1 h1 -> addresses idna s2 h2 ->
  (rq_derive r1 (derived_named $"@authority" p1) = rq_derive r2 (derived_named $"@authority" p2) <-> h1 = h2).
Proof. exact authority_hosts. Qed.
Print Assumptions C79_authority_tells_hosts_apart.
(** A request accepted with the signature of a reqwest request that covers @target-uri is for
    the host of that request, or there is a forgery. *)
Theorem C79_accepted_requests_are_for_the_signed_host : forall (cr : client_request_like rq) (r r' : rq) (c : signing_config) (env : sign_env) (s : mock) (vc : verifying_config)
  (venv : verify_env) (kid : str) (ps : params) (idna : str -> option str) (t1 t2 : str), cr = rq_async \/ cr = rq_blocking -> idna_laws idna ->
  sys_clock_ok (se_sys env) -> sign cr r c env = Done (r', Ok tt) ->
  Forall component_rep (sc_components c) -> sc_nonce c <> Some [] ->
  mr_derive s (CHeader $"signature-input") = rq_derive r' (CHeader $"signature-input") ->
  mr_derive s (CHeader $"signature") = rq_derive r' (CHeader $"signature") ->
  ~ In "="%char (sc_label c) -> plain (sc_label c) ->
  (forall m, let sig := sg_sign (sc_signature c) (se_rnd env) m in plain sig /\ clean_signature sig) ->
  no_lf (rq_method r) -> no_lf (mr_method s) -> (forall q, In q (sc_components c) -> ~ is_query_params q) ->
  special_url (url_host idna) t1 (rq_url r) -> special_url (url_host idna) t2 (mr_url s) -> In (derived_named $"@target-uri" ps) (sc_components c) ->
  verify mr_server s vc venv = Done (Ok (tt, kid)) ->
  (exists h, addresses idna t1 h /\ addresses idna t2 h)
  \/ exists m1 m2 k, two_bases (signed_view rq_rl r r') (mr_derive s) c (seconds (se_sys env)) m1 m2
      /\ In k (vc_keys vc (sc_key_id c)) /\ vf_verify k m2 (sg_sign (sc_signature c) (se_rnd env) m1) = true.
Proof. exact accepted_host. Qed.
Print Assumptions C79_accepted_requests_are_for_the_signed_host.

(** A mapping as expected, and spellings of hosts. *)
Example C79_laws_case : idna_laws ascii_idna.
Proof. exact ascii_idna_laws. Qed.
Example C79_spellings : 
  map (url_host ascii_idna) [$"127.0.0.1"; $"0x7f.1"; $"2130706433"; $"0177.0.0.01."; $"%31%32%37.1"] = repeat (Some $"127.0.0.1") 5
  /\ map (url_host ascii_idna) [$"[::1]"; $"[0:0::0:1]"; $"[0000:0:0:0:0:0:0.0.0.1]"] = repeat (Some $"[::1]") 3
  /\ url_host ascii_idna $"[2001:DB8:0:0:1:0:0:1]" = Some $"[2001:db8::1:0:0:1]"
  /\ url_host ascii_idna $"Example.%63OM" = Some $"example.com"
  /\ map (url_host ascii_idna) [$"256.1.1.1"; $"1.2.3.4.5"; $"a b"; $"[1::2::3]"; $"[::12345]"; $"[::1.2.3.04]"; $"a%00b"; []] = repeat None 8.
Proof. split; [vm_compute; reflexivity|]. split; [vm_compute; reflexivity|]. split; [vm_compute; reflexivity|]. split; vm_compute; reflexivity. Qed.
Definition h_rq (s : str) : rq :=
  match url_parse (url_host ascii_idna) toy_schemes s with Ok u => Rq $"GET" u [] BNone | Err _ => s_req end.
Example C79_case : let r1 := h_rq $"http://0x7f.1:8080/a" in let r2 := h_rq $"http://127.0.0.1/b" in
  special_url (url_host ascii_idna) $"http://0x7f.1:8080/a" (rq_url r1) /\ special_url (url_host ascii_idna) $"http://127.0.0.1/b" (rq_url r2)
  /\ addresses ascii_idna $"http://0x7f.1:8080/a" (HIpv4 2130706433) /\ addresses ascii_idna $"http://127.0.0.1/b" (HIpv4 2130706433)
  /\ rq_derive r1 (derived_named $"@authority" []) = Done (Some $"127.0.0.1").
Proof.
  cbv zeta. split; [apply (http_text _ toy_schemes $"//0x7f.1:8080/a"); vm_compute; reflexivity|].
  split; [apply (http_text _ toy_schemes $"//127.0.0.1/b"); vm_compute; reflexivity|].
  assert (K : forall w hs, match url_parse Some toy_schemes ($"http:" ++ w) with Ok u => u_host u | Err _ => None end = Some hs ->
    host_parse ascii_idna hs = Some (HIpv4 2130706433) -> addresses ascii_idna ($"http:" ++ w) (HIpv4 2130706433)).
  { intros w hs U H. exists hs. split; [|now apply host_iff]. destruct (url_parse Some toy_schemes ($"http:" ++ w)) as [u|] eqn:E; [|discriminate].
    exists u. split; [now apply (http_text Some toy_schemes w)|exact U]. }
  split; [|split].
  - apply (K $"//0x7f.1:8080/a" $"0x7f.1"); vm_compute; reflexivity.
  - apply (K $"//127.0.0.1/b" $"127.0.0.1"); vm_compute; reflexivity.
  - vm_compute. reflexivity.
Qed.
