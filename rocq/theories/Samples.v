(** Concrete requests and configurations used by the [Example]s beside the property
    theorems (they model nothing). *)
From Verif Require Export Reqwest Mock Validator.

Definition s_url : url :=
  Url $"https" true [] None (Some $"example.com") None $"/foo" (Some $"a=1&a=2&b=x%20y") None.
Definition s_req : rq :=
  Rq $"POST" s_url [($"content-type", $"text/plain"); (h_date, $"Tue, 20 Apr 2021 02:07:55 GMT")] (BBytes $"hello").
Definition s_qp (n : str) : component := CDerived (dc_with_param (dc_new AT_QUERY_PARAMS) $"name" n).
Definition s_cfg : canon_config :=
  cc_set_keyid (cc_set_created (cc_set_alg (cc_set_components cc_new
    [CDerived (dc_new AT_METHOD); CHeader h_date; CHeader $"content-type"]) $"hmac-sha256") 1618884475) $"k1".
Definition s_base : str :=
  join [ch_lf] [s2b """@method"": POST"; s2b """date"": Tue, 20 Apr 2021 02:07:55 GMT"; s2b """content-type"": text/plain";
    s2b """@signature-params"": (""@method"" ""date"" ""content-type"");alg=""hmac-sha256"";created=1618884475;keyid=""k1"""].
Definition s_input : str :=
  s2b "sig=(""@method"" ""date"" ""content-type"");alg=""hmac-sha256"";created=1618884475;keyid=""k1""".

(** A cheap keyed checksum in the place of HMAC: the kernel checker [coqchk] has no
    virtual machine, and takes minutes to evaluate a few HMACs (Tests.v has some). *)
Definition toy_mac (key msg : str) : str :=
  be_bytes 3 (fold_left (fun a c => (a * 33 + code c) mod 16777216)%N (key ++ msg) 7%N).
Definition toy_signer (key : str) : http_signer := HttpSigner $"toy" (fun _ => hmac_http_sign (toy_mac key)).
Definition toy_verifier (key : str) : http_verifier := HttpVerifier $"toy" (hmac_http_verify (toy_mac key)).

(** A MockRequest, signed, and the matching verifying configuration. *)
Definition m_req : mock :=
  MockReq HTTP_11 $"POST" s_url $"/foo?a=1&a=2&b=x%20y"
    [($"host", $"example.com"); ($"content-type", $"text/plain"); (h_date, $"Tue, 20 Apr 2021 02:07:55 GMT")] (Some $"hello").
Definition m_sconf : signing_config :=
  sc_set_expires_relative (sc_set_created_auto (sc_set_components (sc_new $"sig" $"k1" (toy_signer $"secret"))
    [CDerived (dc_new AT_METHOD); s_qp $"a"; CHeader h_date; CHeader h_digest; CHeader $"x-absent"])) 60.
Definition m_senv : sign_env := SignEnv 1618884475123456789 1618884475123456789 0.
Definition m_keys : key_provider := skp_provide (skp_new [($"k1", toy_verifier $"secret")]).
Definition m_vconf : verifying_config := vc_set_validate_date (vc_new m_keys) false.
Definition m_venv : verify_env := VerifyEnv 1618884480000000000 1618884480000000000.
Definition m_input : str :=
  s2b "sig=(""@method"" ""@query-params"";name=""a"" ""date"" ""digest"");alg=""toy"";created=1618884475;expires=1618884535;keyid=""k1""".
Definition m_sigv : str := $"sig=:Rvnb:".
Definition m_digest : str := $"SHA-256=LPJNul+wow4m6DsqxbninhsWHlwfp0JecwQzYpOLmCQ=".
(** The result of signing [m_req] ([C14_case] checks it). *)
Definition m_signed : mock :=
  MockReq HTTP_11 $"POST" s_url $"/foo?a=1&a=2&b=x%20y"
    [($"host", $"example.com"); ($"content-type", $"text/plain"); (h_date, $"Tue, 20 Apr 2021 02:07:55 GMT");
     (h_digest, m_digest); (h_signature_input, m_input); (h_signature, m_sigv)] (Some $"hello").
