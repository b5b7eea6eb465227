(** Validation of the model on the repository's own test vectors and on published
    vectors.  These are tests of the model, not theorems about it. *)
From Verif Require Import KeyFile Str Base64 Sha2 Sfv Http Component Canonicalize Algorithm Calendar
  Signing Verifying Reqwest Mock.

(** FIPS 180-4 and RFC 4231-style vectors. *)
Example sha256_abc : b64_encode (sha256 $"abc") = $"ungWv48Bz+pBQUDeXa4iI7ADYaOWF3qctBD/YfIAFa0=".
Proof. vm_compute. reflexivity. Qed.
Example sha512_abc : b64_encode (sha512 $"abc")
  = $"3a81oZNherrMQXNJriBBMRLm+k6JqX6iCp7u5ktV05ohkpkqJ0/BqDa6PCOj/uu9RU1EI2Q86A4qmslPpUyknw==".
Proof. vm_compute. reflexivity. Qed.
Example hmac256_hello : b64_encode (hmac sha256 64 $"password" $"hello") = $"euYV5phWfl4VEt2BQOdAvU1l36TbGV2AyjJ95jArSmM=".
Proof. vm_compute. reflexivity. Qed.

(** test_data/basic_request.txt: the digest of its body. *)
Definition hello_body : str := s2b "{""hello"": ""world""}".
Example digest_body : dg_digest sha256_digest hello_body = $"X48E9qOokqqrvdts8nOJRJN3OWDUoyWxBf7kbu9DBPE=".
Proof. vm_compute. reflexivity. Qed.

(** src/reqwest_impls.rs:211-215. *)
Example date_2021 : fmt_http_date 1618884475 = $"Tue, 20 Apr 2021 02:07:55 GMT".
Proof. vm_compute. reflexivity. Qed.

(** src/canonicalize.rs:251-258 (test_from_sig_input). *)
Definition test_input : str := s2b "sig=(""host"" ""date"" ""digest"");alg=""rsa-v1_5-sha256"";keyid=""test-key-rsa""".
Example test_from_sig_input :
  match cc_parse test_input with
  | Done (Ok c) => si_to_string (cc_to_signature_input c) = Done test_input
  | _ => False
  end.
Proof. vm_compute. reflexivity. Qed.

(** src/reqwest_impls.rs:188-235 (it_works). *)
Definition it_works_url : url :=
  Url $"https" true [] None (Some $"example.com") None $"/foo" (Some $"param=value&pet=dog") None.
Definition it_works_req : rq :=
  Rq $"POST" it_works_url
     [ (h_host, $"example.com"); ($"content-type", $"application/json");
       (h_date, $"Tue, 20 Apr 2021 02:07:55 GMT");
       (h_digest, $"sha-256=X48E9qOokqqrvdts8nOJRJN3OWDUoyWxBf7kbu9DBPE=");
       ($"example-dict", $"a=(1 2), b=3, c=4;aa=bb, d=(5 6);valid") ]
     (BBytes hello_body).
Definition it_works_config : signing_config :=
  sc_set_components (sc_new $"sig" $"hmac" (hmac_sha256_signer $"password"))
    [CDerived (dc_new AT_REQUEST_TARGET); CHeader h_date; CHeader h_digest; CHeader h_host].
Example it_works :
  match sign rq_async it_works_req it_works_config (SignEnv 0 0 0) with
  | Done (r, Ok _) =>
      hm_get (rq_headers r) h_signature_input
        = Some (s2b "sig=(""@request-target"" ""date"" ""digest"" ""host"");alg=""hmac-sha256"";keyid=""hmac""")
      /\ hm_get (rq_headers r) h_signature = Some $"sig=:3YquZWmc8X0QnicPjncUr9vjS1FXEkFGY7+QtWNJtVc=:"
  | _ => False
  end.
Proof. vm_compute. split; reflexivity. Qed.

(** src/reqwest_impls.rs:90-185 (test_derive_...) on https://www.example.com//path?param=value&foo=bar&baz=batman. *)
Definition www_url : url :=
  Url $"https" true [] None (Some $"www.example.com") None $"//path" (Some $"param=value&foo=bar&baz=batman") None.
Definition www (c : derived) := rq_derive (Rq $"POST" www_url [] BNone) (CDerived c).
Example derive_method : www (dc_new AT_METHOD) = Done (Some $"POST").
Proof. reflexivity. Qed.
Example derive_target : www (dc_new AT_TARGET_URI) = Done (Some $"https://www.example.com//path?param=value&foo=bar&baz=batman").
Proof. reflexivity. Qed.
Example derive_authority : www (dc_new AT_AUTHORITY) = Done (Some $"www.example.com").
Proof. reflexivity. Qed.
Example derive_query : www (dc_new AT_QUERY) = Done (Some $"?param=value&foo=bar&baz=batman").
Proof. reflexivity. Qed.
Example derive_qp : www (dc_with_param (dc_new AT_QUERY_PARAMS) $"name" $"param") = Done (Some $"value").
Proof. vm_compute. reflexivity. Qed.

(** test_data/basic_request.txt through [from_reader] (URL parser stubbed for the one
    relative URL it meets). *)
Definition stub_parser : url_parser := fun s =>
  if str_eqb s $"http://example.com/foo?param=value&pet=dog"
  then Ok (Url $"http" true [] None (Some $"example.com") None $"/foo" (Some $"param=value&pet=dog") None)
  else Err RelativeUrlWithoutBase.
Definition basic_request : str :=
  join [ch_lf]
    [ $"POST /foo?param=value&pet=dog HTTP/1.1"; $"Host: example.com"; $"Date: Tue, 20 Apr 2021 02:07:55 GMT";
      $"Content-Type: application/json"; $"Content-Digest: sha-256=:X48E9qOokqqrvdts8nOJRJN3OWDUoyWxBf7kbu9DBPE=:";
      $"Example-Dict: a=(1 2), b=3, c=4;aa=bb, d=(5 6);valid"; $"Content-Length: 18"; []; hello_body ].
Example read_basic :
  match from_reader true stub_parser basic_request with
  | Done (Some r) => mr_body r = Some hello_body /\ List.length (mr_headers r) = 6
                     /\ hm_get (mr_headers r) h_host = Some $"example.com"
  | _ => False
  end.
Proof. vm_compute. repeat split; reflexivity. Qed.

(** mock_request.rs:522-548 (no_headers), with HMAC in place of RSA. *)
Example no_headers :
  match from_reader true stub_parser basic_request with
  | Done (Some r) =>
      match sign mr_client r (sc_set_compute_digest (sc_new $"sig" $"test-key" (hmac_sha256_signer $"k")) false) (SignEnv 0 0 0) with
      | Done (r', Ok _) => hm_get (mr_headers r') h_signature_input = Some (s2b "sig=();alg=""hmac-sha256"";keyid=""test-key""")
      | _ => False
      end
  | _ => False
  end.
Proof. vm_compute. reflexivity. Qed.

(** The public keys of test_data: ecc-public.pem and rsa-public-justin.pem are SPKI (65 and
    270 bytes of key), rsa-public.pem is PKCS#1 and no SPKI. *)
Definition ecc_public_pem : str :=
  join [ch_lf]
    [ $"-----BEGIN PUBLIC KEY-----";
      $"MFkwEwYHKoZIzj0CAQYIKoZIzj0DAQcDQgAEgJL4hG+ESiKzj/EQnNhHAipcV53Y";
      $"X5VV8veM60nNkwa+Fxgo65gPyvrzhDk6ioK3UEeXnwhbWgvCgXk9TiJ2Fg==";
      $"-----END PUBLIC KEY-----"; [] ].
Definition rsa_public_pem : str :=
  join [ch_lf]
    [ $"-----BEGIN RSA PUBLIC KEY-----";
      $"MIIBCgKCAQEAsaFnMYwbv+bMYpPloTAMLgOEyH7N93HFoXmnADnEKt6X38SmzS73";
      $"W5Wg8WYjRqEjnlIBfBVQh6p8b1rCOXBtYCZXDkxc/sYaJ2kQSmtZ7E3hvU9kXtaa";
      $"bHml0kTOlOK8ExnUpokQJ55NroVggbk44LMIuvd568YI2NJoEtMKZ1oH7ZoeTCKy";
      $"sUcNc/94MluNWIFqan0fnw4e1Dh3NfN0ZxjLwd3eJjwD6YCPz3K8ppeeaHEBsEbC";
      $"PV4UjdNXUU4rAVf1Ce1Zjw+W9eeDJ+WCH2ELIOIPlBvxI4etVayQLZ1m6r2T7crl";
      $"/TV5eYKABYl9LrJ2P7Ig+/mK1xP5cdU9BQIDAQAB";
      $"-----END RSA PUBLIC KEY-----"; [] ].
Definition rsa_public_justin_pem : str :=
  join [ch_lf]
    [ $"-----BEGIN PUBLIC KEY-----";
      $"MIIBIjANBgkqhkiG9w0BAQEFAAOCAQ8AMIIBCgKCAQEAr4tmm3r20Wd/PbqvP1s2";
      $"+QEtvpuRaV8Yq40gjUR8y2Rjxa6dpG2GXHbPfvMs8ct+Lh1GH45x28Rw3Ry53mm+";
      $"oAXjyQ86OnDkZ5N8lYbggD4O3w6M6pAvLkhk95AndTrifbIFPNU8PPMO7OyrFAHq";
      $"gDsznjPFmTOtCEcN2Z1FpWgchwuYLPL+Wokqltd11nqqzi+bJ9cvSKADYdUAAN5W";
      $"Utzdpiy6LbTgSxP7ociU4Tn0g5I6aDZJ7A8Lzo0KSyZYoA485mqcO0GVAdVw9lq4";
      $"aOT9v6d+nb4bnNkQVklLQ3fVAvJm+xdDOp9LCNCN48V2pnDOkFV6+U9nV5oyc6XI";
      $"2wIDAQAB";
      $"-----END PUBLIC KEY-----"; [] ].
Definition key_length (text : str) : option (option nat * nat) :=
  option_map (fun b => (option_map (@List.length ascii) (spki_key b), List.length b)) (pem_contents text).
Example key_files : map key_length [ecc_public_pem; rsa_public_pem; rsa_public_justin_pem]
  = [Some (Some 65, 91); Some (None, 270); Some (Some 270, 294)]%nat.
Proof. vm_compute. reflexivity. Qed.
