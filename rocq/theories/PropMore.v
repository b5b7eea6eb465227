(** Properties of verdicts and histories: C20 (default digests), C57-C63. *)
From Verif Require Import SpecMore GrowFacts RoundTrip LineFacts MockFacts CanonFacts SignFacts VerifyFacts ReqFacts Samples WitnessSign WitnessRound.

(** C20: the algorithm names of the default digest provider, in any case. *)
Theorem C20_default_digests : forall (name : str) (d : http_digest),
  default_digest_provider name = Some d <->
  Forall2 lower_of name $"sha-256" /\ d = sha256_digest \/ Forall2 lower_of name $"sha-512" /\ d = sha512_digest.
Proof. exact default_digests. Qed.
Print Assumptions C20_default_digests.
Example C20_default_case : default_digest_provider $"Sha-256" = Some sha256_digest /\ default_digest_provider $"md5" = None
  /\ Forall2 lower_of $"Sha-256" $"sha-256".
Proof. split; [reflexivity|]. split; [reflexivity|]. repeat (constructor; [reflexivity|]). constructor. Qed.

(** ** C57: only what was signed is accepted *)
(** [history]: the calls of [sign] made so far, on any requests with any configurations.
    If a request is accepted for a key id, then one of the calls, made with that key id,
    covered the same components with the same values and the same parameters, and the
    verification time is within its validity; or a signature has been forged. *)
Theorem C57_accepted_was_signed :
  forall R (cr : client_request_like R), client_laws cr ->
  forall S Rem (sr : server_request_like S Rem)
    (history : list (signing_event R)) (s : S) (vc : verifying_config) (venv : verify_env) (rem : Rem) (kid : str),
  Forall (happened cr) history ->
  (forall e, In e history -> single_line (ev_view cr e) /\ forall q, In q (sc_components (ev_config e)) -> ~ is_query_params q) ->
  single_line (rl_derive (sr_rl sr) s) ->
  sys_clock_ok (ve_sys venv) ->
  verify sr s vc venv = Done (Ok (rem, kid)) ->
  forged cr history sr s (vc_keys vc) kid
  \/ exists e input cc cs, In e history /\ sc_key_id (ev_config e) = kid
      /\ header_value sr s $"signature-input" input /\ input_reads input cc
      /\ covered (ev_view cr e) (ev_config e) cs
      /\ same_params (cc_params cc) (ev_stamp e)
      /\ Forall2 (fun a b => same_component a b /\ exists v, rl_derive (sr_rl sr) s a = Done (Some v) /\ ev_view cr e b = Done (Some v))
           (cc_components cc) cs
      /\ (forall t, created_at (ev_config e) (seconds (se_sys (ev_env e))) = Some t -> (t <= seconds (ve_sys venv))%Z)
      /\ (forall t, expires_at (ev_config e) (seconds (se_sys (ev_env e))) = Some t -> (seconds (ve_sys venv) <= t)%Z).
Proof. exact @accepted_was_signed. Qed.
Print Assumptions C57_accepted_was_signed.
(** Values without line feeds: the request types of the crate. *)
Theorem C57_single_lines :
  (forall r, line_request (rq_method r) (rq_url r) -> single_line (rl_derive rq_rl r))
  /\ (forall r, line_request (mr_method r) (mr_url r) -> single_line (rl_derive mr_rl r))
  /\ (forall R (cr : client_request_like R) (e : signing_event R),
      single_line (rl_derive (cr_rl cr) (ev_before e)) -> single_line (rl_derive (cr_rl cr) (ev_after e)) -> single_line (ev_view cr e)).
Proof. exact (conj rq_single_line (conj mr_single_line (@ev_single_line))). Qed.
Print Assumptions C57_single_lines.
Definition n_sconf : signing_config :=
  sc_set_compute_digest (sc_set_components m_sconf [CDerived (dc_new AT_METHOD); CHeader h_date; CHeader $"content-type"]) false.
Definition n_signed : mock :=
  mr_set_header (mr_set_header m_req h_signature_input
    (s2b "sig=(""@method"" ""date"" ""content-type"");alg=""toy"";created=1618884475;expires=1618884535;keyid=""k1""")) h_signature $"sig=:Cccd:".
Definition n_event : signing_event mock := SigningEvent m_req n_signed n_sconf m_senv.
Definition n_vconf : verifying_config := vc_set_require_digest (vc_set_validate_date (vc_new m_keys) false) false.
Example C57_case : Forall (happened mr_client) [n_event]
  /\ (forall e, In e [n_event] -> single_line (ev_view mr_client e) /\ forall q, In q (sc_components (ev_config e)) -> ~ is_query_params q)
  /\ single_line (mr_derive n_signed) /\ sys_clock_ok (ve_sys m_venv)
  /\ verify mr_server n_signed n_vconf m_venv = Done (Ok (tt, $"k1")).
Proof.
  assert (L : line_request (mr_method n_signed) (mr_url n_signed)).
  { unfold line_request. cbn [n_signed m_req mr_set_header mr_method mr_url s_url u_scheme u_username u_password u_host u_path u_query u_fragment no_lf_opt].
    repeat split; now apply no_lf_lit. }
  split; [|split; [|split; [|split]]].
  - constructor; [|constructor]. split; [vm_compute; intuition discriminate|]. split; [vm_compute; reflexivity|]. split; [|discriminate].
    do 3 (constructor; [apply component_repb_rep; vm_compute; reflexivity|]). constructor.
  - intros e [<-|[]]. split; [apply ev_single_line; now apply mr_single_line|]. intros q [<-|[<-|[<-|[]]]] (p & E); discriminate.
  - now apply (mr_single_line n_signed).
  - vm_compute. intuition discriminate.
  - vm_compute. reflexivity.
Qed.

(** ** C58: a laxer configuration accepts more *)
(** More keys for each key id, fewer required components, options switched off, a larger
    leeway ([laxer], SpecMore.v). *)
Theorem C58_laxer_configurations_accept_more :
  forall S Rem (sr : server_request_like S Rem) (s : S) (c c' : verifying_config) (env : verify_env) (rem : Rem) (kid : str),
  clocks_ok c env -> laxer c c' -> verify sr s c env = Done (Ok (rem, kid)) ->
  exists rem', verify sr s c' env = Done (Ok (rem', kid)).
Proof. exact @laxer_accepts. Qed.
Print Assumptions C58_laxer_configurations_accept_more.
Definition n_strict : verifying_config :=
  VerifyingConfig m_keys default_digest_provider [CHeader $"date"; CHeader $"content-type"] false true false 0.
Definition n_lax : verifying_config :=
  VerifyingConfig (skp_provide (skp_new [($"k2", toy_verifier $"y"); ($"k1", toy_verifier $"x"); ($"k1", toy_verifier $"secret")]))
    default_digest_provider [CHeader $"date"] false false false 5.
Example C58_case : laxer n_strict n_lax /\ clocks_ok n_strict m_venv
  /\ map (fun c => verify mr_server n_signed c m_venv) [n_strict; n_lax] = [Done (Ok (tt, $"k1")); Done (Ok (tt, $"k1"))].
Proof.
  split; [constructor|split].
  - intros id k. destruct (list_eq_dec ascii_dec id $"k1") as [->|N].
    + change (vc_keys n_strict $"k1") with [toy_verifier $"secret"].
      change (vc_keys n_lax $"k1") with [toy_verifier $"x"; toy_verifier $"secret"]. intros [<-|[]]. right. now left.
    + change (vc_keys n_strict id) with (skp_provide [($"k1", [toy_verifier $"secret"])] id). unfold skp_provide. cbn [imap_get].
      destruct (str_eqb $"k1" id) eqn:F; [apply str_eqb_eq in F; congruence|]. destruct (str_eqb id $"k1") eqn:F2; [apply str_eqb_eq in F2; congruence|]. intros [].
  - reflexivity.
  - intros q [<-|[]]. now left.
  - discriminate.
  - discriminate.
  - discriminate.
  - vm_compute. discriminate.
  - split; [vm_compute; intuition discriminate|discriminate].
  - vm_compute. reflexivity.
Qed.

(** ** C59: what the verdict depends on *)
(** Two requests, of any types, that agree on the headers Signature-Input, Signature and
    Digest, on the components listed in Signature-Input and on the digests of the body
    get the same verdict: accepted with the same key id, rejected, or a panic. *)
Theorem C59_verdict_depends_on_covered_parts :
  forall S Rem S' Rem' (sr : server_request_like S Rem) (sr' : server_request_like S' Rem') (s : S) (s' : S')
    (c : verifying_config) (env : verify_env),
  (forall h, In h [$"signature-input"; $"signature"; $"digest"] -> rl_derive (sr_rl sr) s (CHeader h) = rl_derive (sr_rl sr') s' (CHeader h)) ->
  (forall input cc q, header_value sr s $"signature-input" input -> input_reads input cc -> In q (cc_components cc) ->
     rl_derive (sr_rl sr) s q = rl_derive (sr_rl sr') s' q) ->
  (forall alg, fst (sr_complete_with_digest sr s alg) = fst (sr_complete_with_digest sr' s' alg)) ->
  verdict_of (verify sr s c env) = verdict_of (verify sr' s' c env).
Proof. exact @same_verdicts. Qed.
Print Assumptions C59_verdict_depends_on_covered_parts.
(** For MockRequest: an uncovered header may be set to anything. *)
Theorem C59_uncovered_header :
  forall (r : mock) (h v input : str) (cc : canon_config) (c : verifying_config) (env : verify_env),
  ~ In h [$"signature-input"; $"signature"; $"digest"] -> header_value mr_server r $"signature-input" input ->
  input_reads input cc -> ~ In (CHeader h) (cc_components cc) ->
  verdict_of (verify mr_server (mr_set_header r h v) c env) = verdict_of (verify mr_server r c env).
Proof. exact uncovered_header. Qed.
Print Assumptions C59_uncovered_header.
Example C59_case : verdict_of (verify mr_server n_signed n_vconf m_venv) = Accepted $"k1"
  /\ verdict_of (verify mr_server (mr_set_header n_signed $"x-new" $"1") n_vconf m_venv) = Accepted $"k1"
  /\ verdict_of (verify mr_server (mr_set_header n_signed $"date" $"1") n_vconf m_venv) = Rejected
  /\ exists input cc, header_value mr_server n_signed $"signature-input" input /\ input_reads input cc /\ ~ In (CHeader $"x-new") (cc_components cc).
Proof.
  split; [vm_compute; reflexivity|]. split; [vm_compute; reflexivity|]. split; [vm_compute; reflexivity|].
  eexists _, _. split; [reflexivity|]. split; [apply cc_parse_iff; vm_compute; reflexivity|].
  cbn [cc_components]. intros [H|[H|[H|[]]]]; discriminate.
Qed.

(** ** C60: signing again changes nothing *)
Theorem C60_signing_again :
  forall R (cr : client_request_like R), client_laws cr -> digest_stable cr ->
  forall (r r' : R) (c : signing_config) (env : sign_env),
  auto_safe cr r c env -> (forall q, In q (sc_components c) -> ~ signature_header q) ->
  (forall m, plain (signature_text c (se_rnd env) m)) ->
  sign cr r c env = Done (r', Ok tt) ->
  exists r'', sign cr r' c env = Done (r'', Ok tt) /\ forall q, rl_derive (cr_rl cr) r'' q = rl_derive (cr_rl cr) r' q.
Proof. exact @resign. Qed.
Print Assumptions C60_signing_again.
Theorem C60_laws : digest_stable rq_async /\ digest_stable rq_blocking /\ digest_stable mr_client.
Proof. exact (conj rq_async_stable (conj rq_blocking_stable mr_client_stable)). Qed.
Print Assumptions C60_laws.
Example C60_case : auto_safe mr_client m_req n_sconf m_senv /\ (forall q, In q (sc_components n_sconf) -> ~ signature_header q)
  /\ (forall m, plain (signature_text n_sconf (se_rnd m_senv) m)) /\ sign mr_client m_req n_sconf m_senv = Done (n_signed, Ok tt)
  /\ sign mr_client n_signed n_sconf m_senv = Done (n_signed, Ok tt).
Proof.
  split; [|split; [|split; [|split]]].
  - split; [vm_compute; intuition discriminate|]. split; [intros _; vm_compute; intuition discriminate|]. split.
    + discriminate.
    + intros d H. apply (mock_digest_plain m_req n_sconf d eq_refl H).
  - intros q [<-|[<-|[<-|[]]]] [E|E]; discriminate.
  - intro m. apply signature_text_plain; [apply plain_iff; reflexivity|]. apply b64_plain.
  - vm_compute. reflexivity.
  - vm_compute. reflexivity.
Qed.

(** ** C61: what is handed back *)
(** A request that fails a check other than the digest's is completed without computing a
    digest of its body. *)
Theorem C61_unauthentic_body_not_read :
  forall S Rem (sr : server_request_like S Rem) (s : S) (c : verifying_config) (env : verify_env) (res : result (Rem * str) Rem),
  clocks_ok c env -> verify sr s c env = Done res ->
  (forall kid, ~ accepts sr s (without_digest c) env kid) -> res = Err (sr_complete sr s).
Proof. exact @back_unauthentic. Qed.
Print Assumptions C61_unauthentic_body_not_read.
(** Otherwise one digest is computed, with the algorithm of the entry that is checked, and
    what is handed back comes from that computation; or none, if none is needed. *)
Theorem C61_handed_back :
  forall S Rem (sr : server_request_like S Rem) (s : S) (c : verifying_config) (env : verify_env) (res : result (Rem * str) Rem),
  clocks_ok c env -> verify sr s c env = Done res ->
  forall kid, accepts sr s (without_digest c) env kid ->
  (forall dv alg v, header_value sr s $"digest" dv -> vc_validate_digest c = true -> first_entry (vc_digests c) dv alg v ->
     handed_back res = snd (sr_complete_with_digest sr s alg))
  /\ (forall dv, header_value sr s $"digest" dv -> vc_validate_digest c = false \/ (forall alg v, ~ first_entry (vc_digests c) dv alg v) ->
     handed_back res = sr_complete sr s)
  /\ (rl_derive (sr_rl sr) s (CHeader $"digest") = Done None ->
     handed_back res = if vc_require_digest c then snd (sr_complete_with_digest sr s sha256_digest) else sr_complete sr s).
Proof. exact @back_authentic. Qed.
Print Assumptions C61_handed_back.
(** A server request that records whether its body was read. *)
Definition reading : server_request_like mock bool :=
  ServerRequestLike mock bool mr_rl (fun r d => (option_map (dg_digest d) (mr_body r), true)) (fun _ => false).
Example C61_case : clocks_ok m_vconf m_venv /\ accepts reading n_signed (without_digest m_vconf) m_venv $"k1"
  /\ verify reading n_signed m_vconf m_venv = Done (Err true)
  /\ verify reading (mr_set_header n_signed $"date" $"1") m_vconf m_venv = Done (Err false)
  /\ (forall kid, ~ accepts reading (mr_set_header n_signed $"date" $"1") (without_digest m_vconf) m_venv kid).
Proof.
  assert (K : clocks_ok m_vconf m_venv) by (split; [vm_compute; intuition discriminate|discriminate]).
  split; [exact K|]. split; [|split; [vm_compute; reflexivity|split; [vm_compute; reflexivity|]]].
  - apply verify_iff; [apply K|discriminate|]. exists false. vm_compute. reflexivity.
  - intros kid A. apply verify_iff in A; [|apply K|discriminate]. destruct A as (rem & A). vm_compute in A. discriminate.
Qed.

(** ** C62: logging the signature base cannot fail *)
(** [canonicalize] and [verify] log the base as text, and would panic if it were not. *)
Theorem C62_base_is_text : forall (f : component -> outcome (option str)) (cs : list component) (p : list (str * bare)) (base : str),
  (forall q v, In q cs -> f q = Done (Some v) -> utf8_text v) -> signature_base f cs p base -> utf8_text base.
Proof. exact base_utf8. Qed.
Print Assumptions C62_base_is_text.
Theorem C62_reqwest_and_mock :
  (forall (r : rq) (cc : canon_config) base si, utf8_line (rq_method r) (rq_url r) -> canonicalize rq_rl r cc = Done (Ok (base, si)) -> utf8_text base)
  /\ (forall (r : mock) (cc : canon_config) base si, utf8_line (mr_method r) (mr_url r) -> canonicalize mr_rl r cc = Done (Ok (base, si)) -> utf8_text base).
Proof. exact (conj rq_base_utf8 mr_base_utf8). Qed.
Print Assumptions C62_reqwest_and_mock.
(** Even when a decoded query parameter is not UTF-8 text. *)
Definition n_raw : rq := Rq $"GET" (Url $"https" true [] None (Some $"example.com") None $"/" (Some $"a=%FF") None) [] BNone.
Example C62_case : utf8_line (rq_method n_raw) (rq_url n_raw)
  /\ exists base si, canonicalize rq_rl n_raw (cc_set_components cc_new [s_qp $"a"]) = Done (Ok (base, si)).
Proof.
  split; [|eexists _, _; vm_compute; reflexivity].
  unfold utf8_line. cbn [n_raw rq_method rq_url u_scheme u_username u_password u_host u_path u_query u_fragment utf8_opt]. repeat split; now apply utf8_lit.
Qed.

(** ** C63: expected, but false: components listed twice are accepted, though the draft
    says each must occur once. *)
Theorem C63_duplicate_components_refuted :
  exists (r r' : mock) (c : signing_config) (env : sign_env) (vc : verifying_config) (venv : verify_env) input cc,
  sign mr_client r c env = Done (r', Ok tt) /\ header_value mr_server r' $"signature-input" input /\ input_reads input cc
  /\ ~ NoDup (cc_components cc) /\ verify mr_server r' vc venv = Done (Ok (tt, sc_key_id c)).
Proof. exact duplicates_accepted. Qed.
Print Assumptions C63_duplicate_components_refuted.
