(** C86: conformance with draft-ietf-httpbis-message-signatures-17 (SpecDraft.v). *)
From Verif Require Import SpecDraft DraftFacts Samples.

(** The draft gives every component at most one value; every URL read from a text with one of
    the special schemes has a host and a path. *)
Theorem C86_one_value : forall (method : str) (u : url) (hs : header_map) (q : component) (v w : str),
  draft_value method u hs q v -> draft_value method u hs q w -> v = w.
Proof. exact draft_value_fun. Qed.
Print Assumptions C86_one_value.
Theorem C86_urls : forall (hp : host_parser) (s : str) (u : url), special_url hp s u -> web_url u.
Proof. exact special_web. Qed.
Print Assumptions C86_urls.

(** A component to which the draft gives a value has that value on a [reqwest] request exactly
    if it is [conforming], or the authority of a URL without a port. *)
Theorem C86_reqwest_values : forall (r : rq) (q : component) (v : str),
  web_url (rq_url r) -> draft_value (rq_method r) (rq_url r) (rq_headers r) q v ->
  (rq_derive r q = Done (Some v) <-> conforming (rq_url r) (rq_headers r) q \/ default_authority (rq_url r) q).
Proof. exact rq_conforming. Qed.
Print Assumptions C86_reqwest_values.
(** On a [MockRequest] the authority never has it. *)
Theorem C86_mock_values : forall (r : mock) (q : component) (v : str),
  web_url (mr_url r) -> draft_value (mr_method r) (mr_url r) (mr_headers r) q v ->
  (mr_derive r q = Done (Some v) <-> conforming (mr_url r) (mr_headers r) q).
Proof. exact mr_conforming. Qed.
Print Assumptions C86_mock_values.

(** The signature base is that of the draft exactly if all covered components have the values
    of the draft. *)
Theorem C86_reqwest_base : forall (r : rq) (c : canon_config) (base : str) (si : signature_input),
  web_url (rq_url r) -> line_request (rq_method r) (rq_url r) -> one_line_fields (rq_headers r) ->
  canonicalize rq_rl r c = Done (Ok (base, si)) ->
  (draft_base (rq_method r) (rq_url r) (rq_headers r) (cc_components c) (cc_params c) base <->
   Forall (fun q => conforming (rq_url r) (rq_headers r) q \/ default_authority (rq_url r) q) (cc_components c)).
Proof. exact rq_canon_draft. Qed.
Print Assumptions C86_reqwest_base.
Theorem C86_mock_base : forall (r : mock) (c : canon_config) (base : str) (si : signature_input),
  web_url (mr_url r) -> line_request (mr_method r) (mr_url r) -> one_line_fields (mr_headers r) ->
  canonicalize mr_rl r c = Done (Ok (base, si)) ->
  (draft_base (mr_method r) (mr_url r) (mr_headers r) (cc_components c) (cc_params c) base <->
   Forall (conforming (mr_url r) (mr_headers r)) (cc_components c)).
Proof. exact mr_canon_draft. Qed.
Print Assumptions C86_mock_base.

(** So [sign] signs the signature base of the draft for the request it returns exactly if all
    covered components are like that. *)
Theorem C86_signed : forall (cr : client_request_like rq) (r r' : rq) (c : signing_config) (env : sign_env), cr = rq_async \/ cr = rq_blocking ->
  sys_clock_ok (se_sys env) -> sign cr r c env = Done (r', Ok tt) ->
  web_url (rq_url r') -> line_request (rq_method r') (rq_url r') -> one_line_fields (rq_headers r') ->
  (forall q, In q (sc_components c) -> ~ signature_header q) ->
  let now := seconds (se_sys env) in
  exists cs base sp, covered (rq_derive r') c cs /\ signature_base (rq_derive r') cs (stamp c now) base
    /\ inner_text (map component_item cs) (stamp c now) sp
    /\ rq_derive r' (CHeader $"signature-input") = Done (Some ($"sig=" ++ sp))
    /\ (plain (signature_text c (se_rnd env) base) -> rq_derive r' (CHeader $"signature") = Done (Some (signature_text c (se_rnd env) base)))
    /\ (draft_base (rq_method r') (rq_url r') (rq_headers r') cs (stamp c now) base <->
        Forall (fun q => conforming (rq_url r') (rq_headers r') q \/ default_authority (rq_url r') q) cs).
Proof. exact rq_signed_draft. Qed.
Print Assumptions C86_signed.
(** The parameters have the types of the draft, except that a nonce is written as a token. *)
Theorem C86_parameter_types : forall (c : signing_config) (now : Z), draft_params (stamp c now) <-> sc_nonce c = None.
Proof. exact stamp_types. Qed.
Print Assumptions C86_parameter_types.

(** A request covering only such components is accepted exactly if a key accepts its signature
    over the signature base of the draft, and the other conditions of C12 hold. *)
Theorem C86_accepts : forall (r : mock) (c : verifying_config) (env : verify_env),
  sys_clock_ok (ve_sys env) -> (vc_validate_date c = true -> utc_clock_ok (ve_utc env)) -> web_url (mr_url r) ->
  (forall input cc, header_value mr_server r $"signature-input" input -> input_reads input cc ->
     Forall (conforming (mr_url r) (mr_headers r)) (cc_components cc)) ->
  forall kid, (exists rem, verify mr_server r c env = Done (Ok (rem, kid))) <->
    exists cc sig base k, signature_headers mr_server r cc sig kid /\ times_ok env cc
      /\ draft_base (mr_method r) (mr_url r) (mr_headers r) (cc_components cc) (cc_params cc) base
      /\ In k (vc_keys c kid) /\ vf_verify k base sig = true
      /\ Forall (listed cc) (vc_required c) /\ date_ok c env cc /\ digest_ok mr_server r c.
Proof. exact accepts_draft. Qed.
Print Assumptions C86_accepts.
(** The draft makes [alg] and [keyid] optional; no request without one of them is accepted. *)
Theorem C86_optional_parameters_refuted :
  forall S Rem (sr : server_request_like S Rem) (r : S) (c : verifying_config) (env : verify_env) (input : str) (cc : canon_config),
  sys_clock_ok (ve_sys env) -> (vc_validate_date c = true -> utc_clock_ok (ve_utc env)) ->
  header_value sr r $"signature-input" input -> input_reads input cc ->
  value_of $"alg" (cc_params cc) = None \/ value_of $"keyid" (cc_params cc) = None ->
  forall rem kid, verify sr r c env <> Done (Ok (rem, kid)).
Proof. exact optional_needed. Qed.
Print Assumptions C86_optional_parameters_refuted.
(** Each of the other components differs on some request: the target URI with a fragment or
    user information, the authority with a port, the origin form of the request target, a
    missing query, a field on two lines. *)
Theorem C86_values_refuted : exists r : rq, web_url (rq_url r)
  /\ forall q, In q (CHeader $"accept" :: map (fun n => derived_named n []) [$"@target-uri"; $"@authority"; $"@request-target"; $"@query"]) ->
     exists v, draft_value (rq_method r) (rq_url r) (rq_headers r) q v /\ rq_derive r q <> Done (Some v).
Proof. exact (ex_intro _ other_req values_differ). Qed.
Print Assumptions C86_values_refuted.

(** The sample request of C01 is signed as the draft says. *)
Lemma sample_fields : Forall (fun q => conforming (rq_url s_req) (rq_headers s_req) q \/ default_authority (rq_url s_req) q) (cc_components s_cfg).
Proof.
  constructor; [left; apply cf_method|]. constructor; [|constructor; [|constructor]]; left.
  - apply (cf_field _ _ h_date $"Tue, 20 Apr 2021 02:07:55 GMT"); [reflexivity|now apply stripped_check|].
    apply (to_str_plain $"Tue, 20 Apr 2021 02:07:55 GMT" $"Tue, 20 Apr 2021 02:07:55 GMT"). reflexivity.
  - apply (cf_field _ _ $"content-type" $"text/plain"); [reflexivity|now apply stripped_check|].
    apply (to_str_plain $"text/plain" $"text/plain"). reflexivity.
Qed.
Lemma no_lf_check (s : str) : existsb (Ascii.eqb ch_lf) s = false -> no_lf s.
Proof. intros E I. assert (X : existsb (Ascii.eqb ch_lf) s = true) by (apply existsb_exists; exists ch_lf; split; [exact I|apply Ascii.eqb_refl]). congruence. Qed.
Example C86_case : web_url (rq_url s_req) /\ line_request (rq_method s_req) (rq_url s_req) /\ one_line_fields (rq_headers s_req)
  /\ (exists si, canonicalize rq_rl s_req s_cfg = Done (Ok (s_base, si)))
  /\ draft_base (rq_method s_req) (rq_url s_req) (rq_headers s_req) (cc_components s_cfg) (cc_params s_cfg) s_base.
Proof.
  assert (W : web_url (rq_url s_req)) by (repeat split; discriminate).
  assert (L : line_request (rq_method s_req) (rq_url s_req)) by (repeat split; cbn [no_lf_opt rq_url s_req s_url u_password u_host u_query u_fragment]; try exact I; apply no_lf_check; reflexivity).
  assert (O : one_line_fields (rq_headers s_req)) by (repeat constructor; apply no_lf_check; reflexivity).
  assert (H : exists si, canonicalize rq_rl s_req s_cfg = Done (Ok (s_base, si))) by (eexists; vm_compute; reflexivity).
  split; [exact W|]. split; [exact L|]. split; [exact O|]. split; [exact H|]. destruct H as (si & H).
  apply (C86_reqwest_base s_req s_cfg s_base si W L O H). exact sample_fields.
Qed.
(** A mock request signed with the draft's base, without [alg]: rejected; with it: accepted. *)
Definition draft_input (alg : str) : str := s2b "sig=(""@method"" ""@path"")" ++ alg ++ s2b ";keyid=""k1""".
Definition draft_signed (alg : str) : mock :=
  MockReq HTTP_11 $"POST" s_url [] [(h_signature_input, draft_input alg);
    (h_signature, $"sig=:" ++ sg_sign (toy_signer $"secret") 0
       (join [ch_lf] [s2b """@method"": POST"; s2b """@path"": /foo"; s2b """@signature-params"": (""@method"" ""@path"")" ++ alg ++ s2b ";keyid=""k1"""]) ++ $":")] None.
Example C86_optional_case :
  map (fun alg => verify mr_server (draft_signed alg) m_vconf m_venv) [s2b ";alg=""toy"""; []] = [Done (Ok (tt, $"k1")); Done (Err tt)].
Proof. vm_compute. reflexivity. Qed.
