(** Properties of [verify]: C11-C13, C15, C17, C18, C20-C22, C24, C28, C30, C45, C46. *)
From Verif Require Import SpecVerify SpecMock MoreVerify Samples Witness.

(** C11: what an accepted request carries. *)
Theorem C11_accepted_by_a_key_of_the_key_id :
  forall S Rem (sr : server_request_like S Rem) (r : S) (c : verifying_config) (env : verify_env) rem kid,
  verify sr r c env = Done (Ok (rem, kid)) ->
  exists cc sig, signature_headers sr r cc sig kid /\ key_accepts sr r c cc sig kid.
Proof. exact @accepted_signature. Qed.
Print Assumptions C11_accepted_by_a_key_of_the_key_id.
Example C11_case : verify mr_server m_signed m_vconf m_venv = Done (Ok (tt, $"k1")).
Proof. vm_compute. reflexivity. Qed.

(** C12: acceptance is exactly the conjunction of the documented conditions
    ([accepts] in SpecVerify.v). *)
Theorem C12_acceptance :
  forall S Rem (sr : server_request_like S Rem) (r : S) (c : verifying_config) (env : verify_env),
  sys_clock_ok (ve_sys env) -> (vc_validate_date c = true -> utc_clock_ok (ve_utc env)) ->
  forall kid, (exists rem, verify sr r c env = Done (Ok (rem, kid))) <-> accepts sr r c env kid.
Proof. exact @verify_iff. Qed.
Print Assumptions C12_acceptance.
Example C12_case : clocks_ok m_vconf m_venv /\ accepts mr_server m_signed m_vconf m_venv $"k1".
Proof.
  assert (O : clocks_ok m_vconf m_venv) by (vm_compute; intuition discriminate).
  split; [exact O|]. apply C12_acceptance; [exact (proj1 O)|exact (proj2 O)|]. exists tt. exact C11_case.
Qed.

(** C13: created and expires. *)
Theorem C13_created_in_the_future_rejected :
  forall S Rem (sr : server_request_like S Rem) (r : S) (c : verifying_config) (env : verify_env) input cc t,
  sys_clock_ok (ve_sys env) ->
  header_value sr r $"signature-input" input -> input_reads input cc ->
  value_of $"created" (cc_params cc) = Some (BInteger t) -> (seconds (ve_sys env) < t)%Z ->
  forall rem kid, verify sr r c env <> Done (Ok (rem, kid)).
Proof. exact @created_enforced. Qed.
Print Assumptions C13_created_in_the_future_rejected.
Theorem C13_expires_in_the_past_rejected :
  forall S Rem (sr : server_request_like S Rem) (r : S) (c : verifying_config) (env : verify_env) input cc t,
  sys_clock_ok (ve_sys env) ->
  header_value sr r $"signature-input" input -> input_reads input cc ->
  value_of $"expires" (cc_params cc) = Some (BInteger t) -> (t < seconds (ve_sys env))%Z ->
  forall rem kid, verify sr r c env <> Done (Ok (rem, kid)).
Proof. exact @expires_enforced. Qed.
Print Assumptions C13_expires_in_the_past_rejected.
Theorem C13_accepting_clocks_are_an_interval :
  forall S Rem (sr : server_request_like S Rem) (r : S) (c : verifying_config) (e1 e2 e3 : verify_env) k1 k3,
  vc_validate_date c = false -> sys_clock_ok (ve_sys e1) -> sys_clock_ok (ve_sys e3) ->
  (ve_sys e1 <= ve_sys e2 <= ve_sys e3)%Z ->
  (exists rem, verify sr r c e1 = Done (Ok (rem, k1))) -> (exists rem, verify sr r c e3 = Done (Ok (rem, k3))) ->
  k1 = k3 /\ exists rem, verify sr r c e2 = Done (Ok (rem, k1)).
Proof. exact @clock_interval. Qed.
Print Assumptions C13_accepting_clocks_are_an_interval.
(** The signed sample is accepted from second 1618884475 to second 1618884535, both included. *)
Example C13_case : map (fun s => verify mr_server m_signed m_vconf (VerifyEnv s 0))
    [1618884474999999999; 1618884475000000000; 1618884535999999999; 1618884536000000000]%Z
  = [Done (Err tt); Done (Ok (tt, $"k1")); Done (Ok (tt, $"k1")); Done (Err tt)].
Proof. vm_compute. reflexivity. Qed.
Example C13_meets : exists cc, header_value mr_server m_signed $"signature-input" m_input /\ input_reads m_input cc
  /\ value_of $"created" (cc_params cc) = Some (BInteger 1618884475) /\ value_of $"expires" (cc_params cc) = Some (BInteger 1618884535).
Proof.
  eexists. split; [vm_compute; reflexivity|]. split; [apply cc_parse_iff; vm_compute; reflexivity|]. split; vm_compute; reflexivity.
Qed.

(** C15: the date parameter.  Switching the check on rejects exactly the requests whose
    date parameter is missing, not an integer, not a date or too far away. *)
Theorem C15_date_parameter_bounds_the_skew :
  forall S Rem (sr : server_request_like S Rem) (r : S) (c : verifying_config) (env : verify_env) kid,
  sys_clock_ok (ve_sys env) -> utc_clock_ok (ve_utc env) ->
  ((exists rem, verify sr r (vc_set_validate_date c true) env = Done (Ok (rem, kid))) <->
   (exists rem, verify sr r (vc_set_validate_date c false) env = Done (Ok (rem, kid)))
   /\ exists input cc d, header_value sr r $"signature-input" input /\ input_reads input cc
        /\ value_of $"date" (cc_params cc) = Some (BInteger d) /\ (first_date <= d <= last_date)%Z
        /\ (- vc_date_leeway c <= d * 1000000000 - ve_utc env <= vc_date_leeway c)%Z).
Proof. exact @date_check_exact. Qed.
Print Assumptions C15_date_parameter_bounds_the_skew.
(** A request whose Signature-Input carries date=1618884475, signed by hand. *)
Definition dated_input : str := s2b "sig=(""@method"");alg=""toy"";keyid=""k1"";date=1618884475".
Definition dated_base : str :=
  join [ch_lf] [s2b """@method"": POST"; s2b """@signature-params"": (""@method"");alg=""toy"";keyid=""k1"";date=1618884475"].
Definition dated_req : mock :=
  MockReq HTTP_11 $"POST" s_url [] [(h_signature_input, dated_input);
    (h_signature, $"sig=:" ++ sg_sign (toy_signer $"secret") 0 dated_base ++ $":")] None.
Example C15_case :
  map (fun t => verify mr_server dated_req (vc_new m_keys) (VerifyEnv 1618884475000000000 t))
    [1618884444999999999; 1618884445000000000; 1618884505000000000; 1618884505000000001]%Z
  = [Done (Err tt); Done (Ok (tt, $"k1")); Done (Ok (tt, $"k1")); Done (Err tt)].
Proof. vm_compute. reflexivity. Qed.

(** C17: required components are signed. *)
Theorem C17_required_components_are_signed :
  forall S Rem (sr : server_request_like S Rem) (r : S) (env : verify_env) (c c' : verifying_config) l rem kid q,
  Forall component_rep l -> vc_set_required c l = Done c' ->
  verify sr r c' env = Done (Ok (rem, kid)) -> In q l ->
  exists input cc, header_value sr r $"signature-input" input /\ input_reads input cc
                   /\ In q (cc_components cc).
Proof. exact @set_required_listed. Qed.
Print Assumptions C17_required_components_are_signed.
(** Required headers that are signed do not cause rejection. *)
Theorem C17_signed_headers_satisfy_the_requirement :
  forall S Rem (sr : server_request_like S Rem) (r : S) (env : verify_env) (c c' : verifying_config) l kid rem,
  clocks_ok c env -> (forall q, In q l -> exists h, q = CHeader h) -> vc_required c = [] ->
  vc_set_required c l = Done c' -> verify sr r c env = Done (Ok (rem, kid)) ->
  (forall q input cc, In q l -> header_value sr r $"signature-input" input -> input_reads input cc ->
     In q (cc_components cc)) ->
  exists rem', verify sr r c' env = Done (Ok (rem', kid)).
Proof. exact @set_required_headers_ok. Qed.
Print Assumptions C17_signed_headers_satisfy_the_requirement.
Example C17_case :
  match vc_set_required m_vconf [CHeader h_digest; CHeader h_date], vc_set_required m_vconf [CHeader h_date; CHeader h_host] with
  | Done c1, Done c2 => verify mr_server m_signed c1 m_venv = Done (Ok (tt, $"k1")) /\ verify mr_server m_signed c2 m_venv = Done (Err tt)
  | _, _ => False
  end.
Proof. vm_compute. split; reflexivity. Qed.

(** C18 is false: a required derived component makes [verify] reject every request. *)
Theorem C18_required_derived_always_rejected :
  forall S Rem (sr : server_request_like S Rem) (r : S) (env : verify_env) (c c' : verifying_config) l d,
  Forall component_rep l -> In (CDerived d) l -> vc_set_required c l = Done c' ->
  forall rem kid, verify sr r c' env <> Done (Ok (rem, kid)).
Proof. exact @set_required_derived_rejected. Qed.
Print Assumptions C18_required_derived_always_rejected.
Theorem C18_required_derived_satisfiable_refuted :
  exists (r : mock) (c c' : verifying_config) (env : verify_env) (input : str) (cc : canon_config) (q : component),
  verify mr_server r c env = Done (Ok (tt, $"k1"))
  /\ header_value mr_server r $"signature-input" input /\ input_reads input cc /\ In q (cc_components cc)
  /\ vc_set_required c [q] = Done c' /\ verify mr_server r c' env = Done (Err tt).
Proof. exact required_method_rejected. Qed.
Print Assumptions C18_required_derived_satisfiable_refuted.
Example C18_case : let l := [CHeader h_date; CDerived (dc_new AT_METHOD)] in
  Forall component_rep l /\ In (CDerived (dc_new AT_METHOD)) l
  /\ exists c', vc_set_required m_vconf l = Done c' /\ verify mr_server m_signed c' m_venv = Done (Err tt).
Proof.
  split; [repeat (constructor; [apply component_repb_rep; reflexivity|]); constructor|]. split; [right; left; reflexivity|].
  eexists. split; [reflexivity|]. vm_compute. reflexivity.
Qed.

(** C20: the Digest header. *)
Theorem C20_digest_matches_the_body :
  forall S Rem (sr : server_request_like S Rem) (r : S) (c : verifying_config) (env : verify_env) rem kid dv,
  vc_validate_digest c = true -> header_value sr r $"digest" dv -> verify sr r c env = Done (Ok (rem, kid)) ->
  exists alg v, first_entry (vc_digests c) dv alg v /\ fst (sr_complete_with_digest sr r alg) = Some v.
Proof. exact @digest_enforced. Qed.
Print Assumptions C20_digest_matches_the_body.
(** On MockRequest with the default digest provider. *)
Theorem C20_mock_request_digest :
  forall (r : mock) (c : verifying_config) (env : verify_env) kid dv,
  vc_validate_digest c = true -> vc_digests c = default_digest_provider ->
  verify mr_server r c env = Done (Ok (tt, kid)) -> header_value mr_server r $"digest" dv ->
  exists body alg v, mr_body r = Some body /\ first_entry default_digest_provider dv alg v
    /\ (alg = sha256_digest /\ v = b64_bits (sha256 body) \/ alg = sha512_digest /\ v = b64_bits (sha512 body)).
Proof. exact mock_digest. Qed.
Print Assumptions C20_mock_request_digest.
Definition with_body (r : mock) (b : option str) : mock :=
  MockReq (mr_version r) (mr_method r) (mr_url r) (mr_path r) (mr_headers r) b.
Example C20_case : header_value mr_server m_signed $"digest" m_digest
  /\ map (fun b => verify mr_server (with_body m_signed b) m_vconf m_venv) [Some $"hello"; Some $"hellp"; None]
     = [Done (Ok (tt, $"k1")); Done (Err tt); Done (Err tt)].
Proof. vm_compute. split; reflexivity. Qed.

(** C21: a body needs a Digest header; no body needs none. *)
Theorem C21_body_without_digest_rejected :
  forall S Rem (sr : server_request_like S Rem) (r : S) (c : verifying_config) (env : verify_env) rem kid d,
  vc_require_digest c = true -> rl_derive (sr_rl sr) r (CHeader $"digest") = Done None ->
  fst (sr_complete_with_digest sr r sha256_digest) = Some d ->
  verify sr r c env <> Done (Ok (rem, kid)).
Proof. exact @digest_required. Qed.
Print Assumptions C21_body_without_digest_rejected.
Theorem C21_no_body_no_digest_needed :
  forall S Rem (sr : server_request_like S Rem) (r : S) (c : verifying_config) (env : verify_env) kid b,
  clocks_ok c env -> fst (sr_complete_with_digest sr r sha256_digest) = None ->
  rl_derive (sr_rl sr) r (CHeader $"digest") = Done None ->
  ((exists rem, verify sr r (vc_set_require_digest c b) env = Done (Ok (rem, kid)))
   <-> (exists rem, verify sr r c env = Done (Ok (rem, kid)))).
Proof. exact @bodyless_digest_option. Qed.
Print Assumptions C21_no_body_no_digest_needed.
Example C21_case :
  verify mr_server dated_req (vc_set_validate_date (vc_new m_keys) false) m_venv = Done (Ok (tt, $"k1"))
  /\ verify mr_server (with_body dated_req (Some $"x")) (vc_set_validate_date (vc_new m_keys) false) m_venv = Done (Err tt).
Proof. vm_compute. split; reflexivity. Qed.

(** C22 is false: the Digest header need not be signed; whoever can change the request
    can replace the body of any accepted request that does not cover Digest. *)
Theorem C22_unsigned_digest_body_replaceable :
  forall (r : mock) (c : verifying_config) (env : verify_env) kid input body cc,
  clocks_ok c env -> vc_digests c = default_digest_provider ->
  verify mr_server r c env = Done (Ok (tt, kid)) ->
  header_value mr_server r $"signature-input" input -> input_reads input cc ->
  ~ In (CHeader $"digest") (cc_components cc) ->
  verify mr_server (replace_body r body) c env = Done (Ok (tt, kid)).
Proof. exact unsigned_digest. Qed.
Print Assumptions C22_unsigned_digest_body_replaceable.
Theorem C22_required_digest_is_covered_refuted :
  exists (r : mock) (c : verifying_config) (env : verify_env) (input : str) (cc : canon_config),
  vc_require_digest c = true /\ vc_validate_digest c = true /\ mr_body r <> None
  /\ verify mr_server r c env = Done (Ok (tt, $"k1"))
  /\ header_value mr_server r $"signature-input" input /\ input_reads input cc
  /\ ~ In (CHeader $"digest") (cc_components cc).
Proof. exact digest_not_covered. Qed.
Print Assumptions C22_required_digest_is_covered_refuted.
(** It holds when Digest is a required component. *)
Theorem C22_digest_covered_when_required_component :
  forall (r : mock) (env : verify_env) (c c' : verifying_config) l kid body,
  Forall component_rep l -> In (CHeader $"digest") l -> vc_set_required c l = Done c' ->
  vc_require_digest c = true -> vc_validate_digest c = true -> vc_digests c = default_digest_provider ->
  verify mr_server r c' env = Done (Ok (tt, kid)) -> mr_body r = Some body ->
  exists input cc dv alg v,
    header_value mr_server r $"signature-input" input /\ input_reads input cc
    /\ In (CHeader $"digest") (cc_components cc)
    /\ header_value mr_server r $"digest" dv /\ first_entry default_digest_provider dv alg v
    /\ (alg = sha256_digest /\ v = b64_bits (sha256 body) \/ alg = sha512_digest /\ v = b64_bits (sha512 body)).
Proof. exact required_digest_covered. Qed.
Print Assumptions C22_digest_covered_when_required_component.
Example C22_case : match vc_set_required m_vconf [CHeader h_digest] with
  | Done c' => verify mr_server m_signed c' m_venv = Done (Ok (tt, $"k1"))
               /\ verify mr_server (replace_body m_signed $"other") c' m_venv = Done (Err tt)
  | Panic => False
  end.
Proof. vm_compute. split; reflexivity. Qed.

(** C24: only the set of verification functions of the key id matters (names, and hence
    the algorithm named in the request, are never compared). *)
Theorem C24_keys_as_a_set :
  forall S Rem (sr : server_request_like S Rem) (r : S) (c : verifying_config) (env : verify_env) (keys : key_provider) kid,
  clocks_ok c env ->
  (forall id f, In f (map vf_verify (vc_keys c id)) <-> In f (map vf_verify (keys id))) ->
  ((exists rem, verify sr r c env = Done (Ok (rem, kid))) <->
   (exists rem, verify sr r (VerifyingConfig keys (vc_digests c) (vc_required c) (vc_require_digest c)
       (vc_validate_digest c) (vc_validate_date c) (vc_date_leeway c)) env = Done (Ok (rem, kid)))).
Proof. exact @keys_as_set. Qed.
Print Assumptions C24_keys_as_a_set.
(** The key is found after a wrong key, although its name is not the one the request
    says (alg="toy"). *)
Example C24_case :
  let k := HttpVerifier $"anything" (vf_verify (toy_verifier $"secret")) in
  let keys := skp_provide (skp_new [($"k1", toy_verifier $"wrong"); ($"k1", k); ($"k1", k)]) in
  verify mr_server m_signed (vc_set_validate_date (vc_new keys) false) m_venv = Done (Ok (tt, $"k1")).
Proof. vm_compute. reflexivity. Qed.

(** C28 is false: [verify] panics, exactly when the Signature-Input header is not a
    readable component list. *)
Theorem C28_verify_panics_exactly_on_unreadable_input :
  forall S Rem (sr : server_request_like S Rem) (r : S) (c : verifying_config) (env : verify_env),
  total_request (sr_rl sr) r -> sys_clock_ok (ve_sys env) -> (vc_validate_date c = true -> utc_clock_ok (ve_utc env)) ->
  (forall d, In (CDerived d) (vc_required c) -> exists t, item_text (dc_item d) t) ->
  (verify sr r c env = Panic <->
   exists input, header_value sr r $"signature-input" input
     /\ ~ exists label items p, first_member input label items p /\ Forall (fun i => exists q, reads_as i q) items).
Proof. exact @verify_panic_text. Qed.
Print Assumptions C28_verify_panics_exactly_on_unreadable_input.
Theorem C28_verify_never_panics_refuted :
  exists (r : mock), verify mr_server r (vc_new m_keys) m_venv = Panic
    /\ hm_get (mr_headers r) $"signature-input" = Some (s2b "sig=(1)").
Proof. exact verify_panics. Qed.
Print Assumptions C28_verify_never_panics_refuted.
Example C28_case : map (fun t => verify mr_server (mr_set_header m_signed h_signature_input t) m_vconf m_venv)
    [m_input; []; $"sig"; $"sig=1"; s2b "sig=(""a b"")"; s2b "sig=(""date"" date)"; $"sig=(); ;"; $"sig=()"]
  = [Done (Ok (tt, $"k1")); Panic; Panic; Panic; Panic; Panic; Panic; Done (Err tt)].
Proof. vm_compute. reflexivity. Qed.

(** C30 is false: a Signature header with a comma is rejected, whatever it contains. *)
Theorem C30_several_signatures_always_rejected :
  forall S Rem (sr : server_request_like S Rem) (r : S) (c : verifying_config) (env : verify_env) sigv,
  header_value sr r $"signature" sigv -> In ","%char sigv ->
  (forall id k, In k (vc_keys c id) -> rejects_commas k) ->
  forall rem kid, verify sr r c env <> Done (Ok (rem, kid)).
Proof. exact @several_signatures_rejected. Qed.
Print Assumptions C30_several_signatures_always_rejected.
(** The verifiers of the crate are of that kind. *)
Theorem C30_verifiers_reject_commas : forall (cy : crypto) (t : key_type) (key : str),
  rejects_commas (hmac_sha256_verifier key) /\ rejects_commas (hmac_sha512_verifier key)
  /\ rejects_commas (ring_verifier cy t key)
  /\ (forall k, openssl_verifier cy t key = Some k -> rejects_commas k).
Proof. exact all_reject_commas. Qed.
Print Assumptions C30_verifiers_reject_commas.
Theorem C30_several_signatures_refuted :
  exists (r r' : mock) (c : verifying_config) (env : verify_env) (input sigv : str),
  verify mr_server r c env = Done (Ok (tt, $"k1"))
  /\ header_value mr_server r $"signature-input" input /\ header_value mr_server r $"signature" sigv
  /\ header_value mr_server r' $"signature-input" (input ++ s2b ", proxy=()")
  /\ header_value mr_server r' $"signature" (sigv ++ s2b ", proxy=:AAAA:")
  /\ verify mr_server r' c env = Done (Err tt).
Proof. exact two_signatures. Qed.
Print Assumptions C30_several_signatures_refuted.
Example C30_case : let r := mr_set_header m_signed h_signature $"sig=:Zjwh:, proxy=:AAAA:" in
  header_value mr_server r $"signature" $"sig=:Zjwh:, proxy=:AAAA:" /\ In ","%char $"sig=:Zjwh:, proxy=:AAAA:"
  /\ (forall id k, In k (vc_keys (vc_new (fun _ => [hmac_sha256_verifier $"a"; hmac_sha512_verifier $"b"])) id) -> rejects_commas k).
Proof.
  split; [reflexivity|]. split; [do 10 right; left; reflexivity|].
  intros id k [<-|[<-|[]]]; [apply (hmac_rejects_commas $"a")|apply (hmac_rejects_commas $"b")].
Qed.

(** C45: members after the first change nothing, unless they repeat its label, and then
    the repetition counts. *)
Theorem C45_later_members : forall (cfg : canon_config) (t u : str) (d : dictionary), config_rep cfg ->
  si_to_string (cc_to_signature_input cfg) = Done t -> dictionary_reads u d -> d <> [] ->
  (value_of (cc_get_label cfg) d = None -> cc_parse (t ++ ","%char :: u) = cc_parse t)
  /\ (forall items p, first_member u (cc_get_label cfg) items p -> cc_parse (t ++ ","%char :: u) = cc_parse u).
Proof. exact later_members. Qed.
Print Assumptions C45_later_members.
Theorem C45_first_member_only : forall (s : str) (cc : canon_config),
  cc_parse s = Done (Ok cc) <-> input_reads s cc.
Proof. exact cc_parse_iff. Qed.
Print Assumptions C45_first_member_only.
Example C45_case : config_rep s_cfg /\ si_to_string (cc_to_signature_input s_cfg) = Done s_input
  /\ exists d, dictionary_reads $" proxy=(1 2);a, x" d /\ value_of (cc_get_label s_cfg) d = None /\ d <> [].
Proof.
  split; [now apply config_repb_rep|]. split; [vm_compute; reflexivity|]. eexists.
  split; [apply parse_dictionary_iff; vm_compute; reflexivity|]. split; [vm_compute; reflexivity|discriminate].
Qed.

(** C46 is false: parameters of header fields are dropped, those of derived components
    are kept. *)
Theorem C46_field_parameters_ignored : forall (s1 s2 label : str) (i1 i2 : list item) (p : list (str * bare)),
  first_member s1 label i1 p -> first_member s2 label i2 p -> Forall2 same_but_field_params i1 i2 ->
  cc_parse s1 = cc_parse s2.
Proof. exact field_params_dropped. Qed.
Print Assumptions C46_field_parameters_ignored.
Theorem C46_field_parameters_honoured_refuted :
  exists (r : mock) (cc : canon_config) (base : str),
  cc_parse (s2b "sig=(""date"";sf)") = Done (Ok cc)
  /\ signature_base (mr_derive r) (cc_components cc) (cc_params cc) base
  /\ base = lines [s2b """date"": today"; s2b """@signature-params"": (""date"")"].
Proof. exact field_parameter_lost. Qed.
Print Assumptions C46_field_parameters_honoured_refuted.
(** Derived components keep theirs. *)
Theorem C46_derived_parameters_honoured_partial : forall (s label n : str) (items : list item) (p : list (str * bare)) (cc : canon_config) (i : item),
  input_reads s cc -> first_member s label items p -> In i items -> it_bare i = BString ("@"%char :: n) ->
  In (CDerived (Derived i)) (cc_components cc).
Proof. exact derived_parameters_kept. Qed.
Print Assumptions C46_derived_parameters_honoured_partial.
Example C46_case :
  Forall2 same_but_field_params [Item (BString $"date") [($"sf", BBoolean true)]] [Item (BString $"date") []]
  /\ first_member (s2b "sig=(""date"";sf)") $"sig" [Item (BString $"date") [($"sf", BBoolean true)]] []
  /\ first_member (s2b "sig=(""date"")") $"sig" [Item (BString $"date") []] [].
Proof.
  split; [|split; apply first_member_iff; eexists; vm_compute; reflexivity]. constructor; [|constructor]. right. split; [reflexivity|].
  exists $"date". split; [reflexivity|]. intros n'. discriminate.
Qed.
