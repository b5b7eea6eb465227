(** The README of the validator: C87. *)
From Verif Require Import SpecManual ManualFacts Samples.
From Verif Require AlgFacts Rsa RsaMore.

(** C87: the command documented for canonicalizing prints what is documented, for every request
    that has the headers, every list of headers and every known algorithm. *)
Theorem C87_canonicalize : forall (w : world) (a k hs stdin : str) (r : mock) (fields : list (str * str)) (se : sign_env) (ve : verify_env),
  In a known_names -> separate k -> separate hs -> simple_text k -> piped w stdin r -> named_fields r hs fields ->
  program w (canon_args a k hs) stdin se ve = EndRun (Done (Ok (canon_output fields k a))).
Proof. exact manual_canon. Qed.
Print Assumptions C87_canonicalize.
(** So does the one for signing, the name of one algorithm aside, given a key that loads: the
    request comes back with the two headers, and the text signed is the documented one. *)
Theorem C87_sign : forall (w : world) (a a' k hs p pem stdin : str) (r : mock) (t : key_type) (key : http_signer) (fields : list (str * str)) (se : sign_env) (ve : verify_env),
  loads a t -> announced a a' -> separate k -> separate hs -> separate p -> simple_text k ->
  w_read w p = Some pem -> sign_new_pkcs8_pem (w_crypto w) (w_ring w) t pem = Some key ->
  piped w stdin r -> shown r -> named_fields r hs fields -> sys_clock_ok (se_sys se) ->
  program w (sign_args hs a k p) stdin se ve = EndRun (Done (Ok (request_text
    (mr_set_header (mr_set_header r $"signature-input" ($"sig=" ++ input_output fields k a')) $"signature"
       ($"sig=:" ++ sg_sign key (se_rnd se) (signed_text fields k a') ++ $":"))))).
Proof. exact manual_sign. Qed.
Print Assumptions C87_sign.
(** Neither works when a header is missing; nothing is added. *)
Theorem C87_missing_header_canonicalize : forall (w : world) (a k hs stdin : str) (r : mock) (se : sign_env) (ve : verify_env),
  separate a -> separate k -> separate hs -> piped w stdin r -> names_missing r hs ->
  exists e, program w (canon_args a k hs) stdin se ve = EndRun (Done (Err e)).
Proof. exact manual_missing_canon. Qed.
Print Assumptions C87_missing_header_canonicalize.
Theorem C87_missing_header_sign : forall (w : world) (a k hs p stdin : str) (r : mock) (se : sign_env) (ve : verify_env),
  separate a -> separate k -> separate hs -> separate p -> piped w stdin r -> names_missing r hs -> sys_clock_ok (se_sys se) ->
  exists e, program w (sign_args hs a k p) stdin se ve = EndRun (Done (Err e)).
Proof. exact manual_missing_sign. Qed.
Print Assumptions C87_missing_header_sign.
(** So the documented signing command always fails on the documented request, whatever the key,
    the algorithm and the clock: it prints nothing; and the documented pipeline panics. *)
Theorem C87_documented_sign_refuted : forall (w : world) (a k p out : str) (e : option verror) (o : opt) (se : sign_env) (ve : verify_env),
  separate a -> separate k -> separate p -> sys_clock_ok (se_sys se) ->
  command_line (sign_args $"host date digest" a k p) o -> main w o basic_request se ve = Done (out, e) -> out = [] /\ e <> None.
Proof. exact manual_silent. Qed.
Print Assumptions C87_documented_sign_refuted.
Theorem C87_documented_pipeline_refuted : forall (w : world) (a k p u out : str) (e : option verror) (o : opt) (se se' : sign_env) (ve ve' : verify_env),
  separate a -> separate k -> separate p -> separate u -> sys_clock_ok (se_sys se) ->
  command_line (sign_args $"host date digest" a k p) o -> main w o basic_request se ve = Done (out, e) ->
  program w (verify_args a k u) out se' ve' = EndRun Panic.
Proof. exact manual_pipe. Qed.
Print Assumptions C87_documented_pipeline_refuted.
(** "If successful, there will be no output": there is none anyway. *)
Theorem C87_verify_prints_nothing : forall (w : world) (o : opt) (stdin out : str) (e : option verror) (se : sign_env) (ve : verify_env),
  op_mode o = MVerify -> main w o stdin se ve = Done (out, e) -> out = [].
Proof. exact verify_silent. Qed.
Print Assumptions C87_verify_prints_nothing.
(** The documented command for verifying never succeeds on the file it is documented with,
    whatever the algorithm and the key: the file ends with a line feed, which makes the body
    another than the one digested ... *)
Theorem C87_documented_verify_refuted : forall (w : world) (a k u out : str) (se : sign_env) (ve : verify_env),
  separate a -> separate k -> separate u ->
  program w (verify_args a k u) (shipped_request (hello_world ++ [ch_lf])) se ve <> EndRun (Done (Ok out)).
Proof. exact manual_shipped. Qed.
Print Assumptions C87_documented_verify_refuted.
(** ... without it, it succeeds just when the signature is valid. *)
Theorem C87_documented_verify_partial : forall (w : world) (u text label key : str) (x : url) (se : sign_env) (ve : verify_env),
  separate u -> w_read w u = Some text -> pem_file text label key -> rsa_public_key key -> w_url w hello_url = Ok x -> sys_clock_ok (ve_sys ve) ->
  (program w (verify_args $"rsa-v1_5-sha256" $"test-key-rsa" u) (shipped_request hello_world) se ve = EndRun (Done (Ok []))
   <-> exists tag, hello_signature = b64_bits tag /\ cy_verify (w_crypto w) PKCS1_SHA256 key hello_base tag = true).
Proof. exact manual_hello. Qed.
Print Assumptions C87_documented_verify_partial.
(** The documented command for making a key writes DER; a file without a PEM block never signs. *)
Theorem C87_der_keys_refuted : forall (w : world) (a k hs p file stdin out : str) (se : sign_env) (ve : verify_env),
  separate a -> separate k -> separate hs -> separate p -> w_read w p = Some file -> (forall x y, file <> x ++ $"-----BEGIN " ++ y) ->
  program w (sign_args hs a k p) stdin se ve <> EndRun (Done (Ok out)).
Proof. exact manual_der. Qed.
Print Assumptions C87_der_keys_refuted.

(** The documented commands; the last on the request with a Digest header. *)
Definition manual_pem : str := $"-----BEGIN KEY-----" ++ [ch_lf] ++ $"a2V5" ++ [ch_lf] ++ $"-----END KEY-----" ++ [ch_lf].
Definition manual_world : world :=
  World (fun f => if str_eqb f $"der" then Some (map ascii_of_N [48; 130; 4; 190; 2; 1; 0]%N) else Some manual_pem) (RingKeys Some Some Some)
    (Crypto (fun _ k _ m => k ++ $"!") (fun _ k m t => str_eqb t (k ++ $"!"))) (fun _ => Ok s_url) false.
Example C87_case : exists r, piped manual_world basic_request r
  /\ named_fields r $"host date content-digest" [($"host", $"example.com"); ($"date", $"Tue, 20 Apr 2021 02:07:55 GMT"); ($"content-digest", $"sha-256=:X48E9qOokqqrvdts8nOJRJN3OWDUoyWxBf7kbu9DBPE=:")]
  /\ names_missing r $"host date digest" /\ simple_text $"test-key-rsa" /\ shown r
  /\ program manual_world (canon_args $"rsa-v1_5-sha256" $"test-key-rsa" $"host date content-digest") basic_request m_senv m_venv
     = EndRun (Done (Ok (s2b """host"": example.com" ++ [ch_lf] ++ s2b """date"": Tue, 20 Apr 2021 02:07:55 GMT" ++ [ch_lf]
         ++ s2b """content-digest"": sha-256=:X48E9qOokqqrvdts8nOJRJN3OWDUoyWxBf7kbu9DBPE=:" ++ [ch_lf]
         ++ s2b """@signature-params"": (""host"" ""date"" ""content-digest"");keyid=""test-key-rsa"";alg=""rsa-v1_5-sha256""")))
  /\ main manual_world (Opt MSign None (Some (Some $"host date digest")) (Some $"test-key-rsa") (Some $"key") None (Some $"sig") (Some $"rsa-v1_5-sha256") None None None)
       basic_request m_senv m_venv = Done ([], Some VSig)
  /\ program manual_world (sign_args $"host date" $"rsa-pss-sha256" $"k" $"key") ($"GET / HTTP/1.1" ++ [ch_lf] ++ $"Host: a" ++ [ch_lf] ++ $"Date: b" ++ [ch_lf]) m_senv m_venv
     = EndRun (Done (Ok ($"GET / HTTP/1.1" ++ [ch_lf] ++ $"host: a" ++ [ch_lf] ++ $"date: b" ++ [ch_lf]
         ++ s2b "signature-input: sig=(""host"" ""date"");alg=""rsa-pss-sha512"";keyid=""k""" ++ [ch_lf] ++ $"signature: sig=:a2V5IQ==:" ++ [ch_lf])))
  /\ program manual_world (sign_args $"host date" $"rsa-pss-sha256" $"k" $"der") basic_request m_senv m_venv = EndRun (Done (Err VKey)).
Proof.
  eexists. split; [apply MockFacts.read_accepts; vm_compute; reflexivity|]. split; [|split; [|split; [|split; [|split; [|split; [|split]]]]]]; try (vm_compute; reflexivity).
  - exists [$"host"; $"date"; $"content-digest"]. split; [apply MockFacts.words_iff; vm_compute; reflexivity|]. split.
    + repeat (constructor; [apply LineFacts.spelled_iff; vm_compute; reflexivity|]). constructor.
    + repeat (constructor; [split; [vm_compute; reflexivity|apply ReqFacts.plain_iff; vm_compute; reflexivity]|]). constructor.
  - exists [$"host"; $"date"; $"digest"], $"digest", $"digest". split; [apply MockFacts.words_iff; vm_compute; reflexivity|]. split; [cbn; auto|].
    split; [apply LineFacts.spelled_iff; vm_compute; reflexivity|vm_compute; reflexivity].
  - repeat (constructor; [split; [vm_compute; split; congruence|split; discriminate]|]). constructor.
  - apply MockFacts.shown_iff. repeat (constructor; [vm_compute; reflexivity|]). constructor.
Qed.
(** test_data/rsa-public.pem *)
Definition rsa_public_lines : list str :=
  [$"MIIBCgKCAQEAsaFnMYwbv+bMYpPloTAMLgOEyH7N93HFoXmnADnEKt6X38SmzS73";
   $"W5Wg8WYjRqEjnlIBfBVQh6p8b1rCOXBtYCZXDkxc/sYaJ2kQSmtZ7E3hvU9kXtaa";
   $"bHml0kTOlOK8ExnUpokQJ55NroVggbk44LMIuvd568YI2NJoEtMKZ1oH7ZoeTCKy";
   $"sUcNc/94MluNWIFqan0fnw4e1Dh3NfN0ZxjLwd3eJjwD6YCPz3K8ppeeaHEBsEbC";
   $"PV4UjdNXUU4rAVf1Ce1Zjw+W9eeDJ+WCH2ELIOIPlBvxI4etVayQLZ1m6r2T7crl";
   $"/TV5eYKABYl9LrJ2P7Ig+/mK1xP5cdU9BQIDAQAB"].
Definition rsa_public_pem : str :=
  $"-----BEGIN RSA PUBLIC KEY-----" ++ [ch_lf] ++ List.concat (map (fun l => l ++ [ch_lf]) rsa_public_lines) ++ $"-----END RSA PUBLIC KEY-----" ++ [ch_lf].
Example C87_verify_case : exists key tag, pem_file rsa_public_pem $"RSA PUBLIC KEY" key /\ rsa_public_key key /\ hello_signature = b64_bits tag.
Proof.
  destruct (b64_decode (List.concat rsa_public_lines)) as [key|] eqn:K; [|vm_compute in K; discriminate].
  destruct (b64_decode hello_signature) as [tag|] eqn:T; [|vm_compute in T; discriminate].
  exists key, tag. split; [|split].
  - exists [], ([ch_lf] ++ List.concat (map (fun l => l ++ [ch_lf]) rsa_public_lines)), [ch_lf].
    split; [reflexivity|]. split; [intros []|]. split; [intro H; repeat (destruct H as [H|H]; [discriminate|]); exact H|]. split; [discriminate|].
    split; [repeat constructor|]. apply AlgFacts.decode_bits in K. rewrite <- K. vm_compute.
    repeat first [apply wrap_nil | apply wrap_byte | apply wrap_lf].
  - assert (R : exists n e, Rsa.ring_rsa_public key = Some (n, e)).
    { vm_compute in K. injection K as <-. eexists _, _. vm_compute. reflexivity. }
    destruct R as (n & e & R). apply RsaMore.ring_public_iff in R. destruct R as [(nb & eb & m & x & _ & _ & A & B & C) _]. now exists nb, eb, m, x.
  - now apply AlgFacts.decode_bits.
Qed.
