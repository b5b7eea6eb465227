(** The output that the README of the validator shows.  Nothing here models code. *)
From Verif Require Export SpecCli SpecRun SpecPem SpecKey.

Definition canon_args (algorithm key_id headers : str) : list str :=
  [$"canonicalize"; $"-l"; $"sig"; $"-a"; algorithm; $"-k"; key_id; $"-d"; headers].

Definition in_quotes (s : str) : str := [ch_quote] ++ s ++ [ch_quote].
(** Text that needs no escapes between quotes. *)
Definition simple_text (s : str) : Prop := Forall (fun c => visible c /\ c <> ch_quote /\ c <> "\"%char) s.
(** The names on the command line, in lower case, and the values the request has for them. *)
Definition named_fields (r : mock) (hs : str) (fields : list (str * str)) : Prop :=
  exists ws, wordlist hs ws /\ Forall2 spelled ws (map fst fields)
    /\ Forall (fun f => first_value (mr_headers r) (fst f) = Some (snd f) /\ plain (snd f)) fields.
(** A header named on the command line that the request does not have. *)
Definition names_missing (r : mock) (hs : str) : Prop :=
  exists ws n h, wordlist hs ws /\ In n ws /\ spelled n h /\ first_value (mr_headers r) h = None.
(** The standard input is this request. *)
Definition piped (w : world) (stdin : str) (r : mock) : Prop :=
  frames stdin r /\ loggable (w_trace w) r /\ target_url (w_url w) (mr_path r) (mr_headers r) (mr_url r).

(** ["host": example.com] and so on, a line each. *)
Definition field_lines (fields : list (str * str)) : str :=
  List.concat (map (fun f => in_quotes (fst f) ++ $": " ++ snd f ++ [ch_lf]) fields).
(** [("host" "date")] *)
Definition field_list (fields : list (str * str)) : str := $"(" ++ spaced (map (fun f => in_quotes (fst f)) fields) ++ $")".
(** What [canonicalize] is shown to print. *)
Definition canon_output (fields : list (str * str)) (key_id algorithm : str) : str :=
  field_lines fields ++ in_quotes $"@signature-params" ++ $": " ++ field_list fields
  ++ $";keyid=" ++ in_quotes key_id ++ $";alg=" ++ in_quotes algorithm.
(** The name under which a signature with this algorithm goes: the algorithm's, with one
    exception. *)
Definition announced (a a' : str) : Prop := a <> $"rsa-pss-sha256" /\ a' = a \/ a = $"rsa-pss-sha256" /\ a' = $"rsa-pss-sha512".
(** The value that [sign] is shown to give to Signature-Input, and the text it signs. *)
Definition input_output (fields : list (str * str)) (key_id algorithm : str) : str :=
  field_list fields ++ $";alg=" ++ in_quotes algorithm ++ $";keyid=" ++ in_quotes key_id.
Definition signed_text (fields : list (str * str)) (key_id algorithm : str) : str :=
  field_lines fields ++ in_quotes $"@signature-params" ++ $": " ++ input_output fields key_id algorithm.

(** test_data/basic_request.txt *)
Definition basic_request : str :=
  $"POST /foo?param=value&pet=dog HTTP/1.1" ++ [ch_lf]
  ++ $"Host: example.com" ++ [ch_lf]
  ++ $"Date: Tue, 20 Apr 2021 02:07:55 GMT" ++ [ch_lf]
  ++ $"Content-Type: application/json" ++ [ch_lf]
  ++ $"Content-Digest: sha-256=:X48E9qOokqqrvdts8nOJRJN3OWDUoyWxBf7kbu9DBPE=:" ++ [ch_lf]
  ++ $"Example-Dict: a=(1 2), b=3, c=4;aa=bb, d=(5 6);valid" ++ [ch_lf]
  ++ $"Content-Length: 18" ++ [ch_lf]
  ++ [ch_lf]
  ++ s2b "{""hello"": ""world""}".

(** test_data/signed_request.txt has this body and a line feed. *)
Definition hello_world : str := s2b "{""hello"": ""world""}".
Definition hello_signature : str :=
  $"HWnpM0gf8Hg+dviM1IeAe0H1xkb/T9ZgjqOtvuhjvkMPSFECqXX3GcF/lwpWcyxbu2lYW6B6dJzCqsnLR663abQuH1GEYlyEDOYuWIVIRq6WdUx4Lsu0nsI7vnfZO9F3Ak+H4mk9bjeaaYeK3QK0pOUsyy97XjFphhr0d3GK2jhdTj0QnVPzVuerKUKno8rfsPQ9oMA5bKgFxhuyrWkvLVR3zDeIAuYkt1LNIwGSZnYIdOgm/F+Gy9VD+xHoLZgeisMlhajxDtcpdNgxnPualV0pd/LT6jTI9foUejM2w09rppLXsX8GLV9o9xhPm4zn4S+TXvvd3D9eI1NJnbWhVw==".
Definition hello_url : str := $"https://example.com/foo?param=value&pet=dog".
Definition shipped_request (body : str) : str :=
  $"POST " ++ hello_url ++ $" HTTP/1.1" ++ [ch_lf]
  ++ $"content-type: application/json" ++ [ch_lf]
  ++ $"content-length: 18" ++ [ch_lf]
  ++ $"digest: sha-256=X48E9qOokqqrvdts8nOJRJN3OWDUoyWxBf7kbu9DBPE=" ++ [ch_lf]
  ++ s2b "signature-input: sig=(""host"" ""date"" ""digest"");alg=""rsa-v1_5-sha256"";keyid=""test-key-rsa""" ++ [ch_lf]
  ++ $"example-dict: a=(1 2), b=3, c=4;aa=bb, d=(5 6);valid" ++ [ch_lf]
  ++ $"date: Tue, 20 Apr 2021 02:07:55 GMT" ++ [ch_lf]
  ++ $"host: example.com" ++ [ch_lf]
  ++ $"signature: sig=:" ++ hello_signature ++ $":" ++ [ch_lf]
  ++ [ch_lf]
  ++ body.
(** What [hello_signature] signs. *)
Definition hello_base : str :=
  s2b """host"": example.com" ++ [ch_lf]
  ++ s2b """date"": Tue, 20 Apr 2021 02:07:55 GMT" ++ [ch_lf]
  ++ s2b """digest"": sha-256=X48E9qOokqqrvdts8nOJRJN3OWDUoyWxBf7kbu9DBPE=" ++ [ch_lf]
  ++ s2b """@signature-params"": (""host"" ""date"" ""digest"");alg=""rsa-v1_5-sha256"";keyid=""test-key-rsa""".
