(** Requests built by hand: C81. *)
From Verif Require Import Samples SpecFacts HostTextFacts BuildFacts.

(** C81: new takes the URL from its text and the Host header from the URL. *)
Theorem C81_new : forall (up : url_parser) (v : version) (m path : str) (hs : header_map) (r : mock), mr_new up v m path hs = Done r ->
  exists u, up path = Ok u /\ mr_version r = v /\ mr_method r = m /\ mr_url r = u /\ mr_path r = path /\ mr_body r = None
    /\ match u_host u with Some h => set_one hs $"host" h (mr_headers r) | None => mr_headers r = hs end.
Proof. exact new_spec. Qed.
Print Assumptions C81_new.
Theorem C81_new_panics : forall (up : url_parser) (v : version) (m path : str) (hs : header_map), mr_new up v m path hs = Panic <->
  forall u, up path = Ok u -> exists h, u_host u = Some h /\ ~ legal_value h.
Proof. exact new_panics. Qed.
Print Assumptions C81_new_panics.
(** So it never panics on http, https, ws, wss and ftp URLs. *)
Theorem C81_new_http : forall (hp : host_parser) (sp : scheme_parser) (v : version) (m path : str) (hs : header_map) (u : url), host_laws hp -> scheme_laws sp -> special_url hp path u ->
  exists r h, mr_new (url_parse hp sp) v m path hs = Done r /\ mr_url r = u /\ u_host u = Some h /\ set_one hs $"host" h (mr_headers r).
Proof. exact new_special. Qed.
Print Assumptions C81_new_http.
(** with_body never panics, and sets the body and its length, and nothing else. *)
Theorem C81_with_body : forall (r : mock) (b : str), exists r' l, mr_with_body r b = Done r' /\ digits l (N.of_nat (List.length b))
  /\ mr_body r' = Some b /\ set_one (mr_headers r) $"content-length" l (mr_headers r')
  /\ mr_version r' = mr_version r /\ mr_method r' = mr_method r /\ mr_url r' = mr_url r /\ mr_path r' = mr_path r.
Proof. exact with_body_spec. Qed.
Print Assumptions C81_with_body.
(** After any calls, the last body and the last value of each header count, and the rest is as
    it was. *)
Theorem C81_calls : forall (r r' : mock) (cs : list call) (ws : list (str * str)), built r cs r' -> writes cs ws ->
  (mr_version r' = mr_version r /\ mr_method r' = mr_method r /\ mr_url r' = mr_url r /\ mr_path r' = mr_path r)
  /\ final_body (mr_body r) cs (mr_body r')
  /\ forall n h, spelled n h ->
    (forall v, last_written ws n v -> hm_get_all (mr_headers r') h = [v])
    /\ (not_written ws n -> hm_get_all (mr_headers r') h = hm_get_all (mr_headers r) h).
Proof. exact built_spec. Qed.
Print Assumptions C81_calls.
(** The request can be written, and is read back as it was, but for the version. *)
Theorem C81_written_and_read : forall (trace : bool) (hp : host_parser) (sp : scheme_parser) (v : version) (m path : str) (u : url) (hs : header_map) (r0 r : mock) (cs : list call),
  host_laws hp -> scheme_laws sp -> special_url hp path u -> mr_new (url_parse hp sp) v m path hs = Done r0 -> built r0 cs r ->
  m <> [] -> Forall tchar m -> path <> [] -> utf8_text path -> Forall (fun c => ~ ascii_blank c) path ->
  NoDup (map fst hs) -> Forall (fun h => header_name (fst h) /\ plain_value (snd h)) hs -> Forall plain_call cs -> loggable trace r ->
  exists t, write r = Some t /\ from_reader trace (url_parse hp sp) t = Done (Some (as_version HTTP_11 r)).
Proof. exact built_write_read_http. Qed.
Print Assumptions C81_written_and_read.
(** The Host header has no port: requests for different ports have the same one. *)
Theorem C81_host_names_the_port_refuted : exists (up : url_parser) (r1 r2 : mock),
  mr_new up HTTP_11 $"GET" $"http://example.com:8080/" [] = Done r1 /\ mr_new up HTTP_11 $"GET" $"http://example.com/" [] = Done r2
  /\ mr_headers r1 = [($"host", $"example.com")] /\ mr_headers r2 = mr_headers r1
  /\ mr_derive r1 (derived_named $"@target-uri" []) = Done (Some $"http://example.com:8080/")
  /\ mr_derive r2 (derived_named $"@target-uri" []) = Done (Some $"http://example.com/").
Proof.
  eexists (url_parse (url_host ascii_idna) (fun _ _ => Err UrlOther)), _, _. split; [vm_compute; reflexivity|]. split; [vm_compute; reflexivity|].
  split; [reflexivity|]. split; [reflexivity|]. split; vm_compute; reflexivity.
Qed.
Print Assumptions C81_host_names_the_port_refuted.

Definition b_up : url_parser := url_parse (url_host ascii_idna) (fun _ _ => Err UrlOther).
Example C81_case : exists r0 r t, mr_new b_up HTTP_10 $"PUT" $"https://Example.com/x?y" [($"host", $"old"); ($"x-a", $"1")] = Done r0
  /\ built r0 [WithBody $"abc"; WithHeader $"X-a" $"2"; WithBody $"hello, world"] r
  /\ mr_headers r = [($"host", $"example.com"); ($"x-a", $"2"); ($"content-length", $"12")] /\ mr_body r = Some $"hello, world"
  /\ writes [WithBody $"abc"; WithHeader $"X-a" $"2"; WithBody $"hello, world"] [($"Content-Length", $"3"); ($"X-a", $"2"); ($"Content-Length", $"12")]
  /\ write r = Some t /\ from_reader true b_up t = Done (Some (as_version HTTP_11 r)).
Proof.
  eexists _, _, _. split; [vm_compute; reflexivity|]. split; [do 3 (econstructor; [vm_compute; reflexivity|]); constructor|].
  split; [reflexivity|]. split; [reflexivity|]. split; [repeat (constructor; try (apply digits_iff; reflexivity))|].
  split; [vm_compute; reflexivity|]. vm_compute; reflexivity.
Qed.
Example C81_panic_case : mr_new b_up HTTP_11 $"GET" $"/x" [] = Panic.
Proof. vm_compute. reflexivity. Qed.
