(** C82, C83: signatures between the two libraries; components made in code. *)
From Verif Require Import MakeFacts Samples SpecMake.

(** C82: openssl constructors sign (verify) with the key their library call reads, and fail
    when it reads none ... *)
Theorem C82_openssl_constructors : forall (cy : crypto) (ok : openssl_keys) (t : key_type) (b : str), t <> EcdsaP256Sha256 ->
  openssl_signer_from cy t (ok_pkcs8 ok b) (openssl_new_pkcs8 cy ok t b)
  /\ openssl_signer_from cy t (ok_private_der ok b) (openssl_new_pkcs1_der cy ok t b)
  /\ openssl_signer_from cy t (ok_private_pem ok b) (openssl_new_pkcs1_pem cy ok t b)
  /\ openssl_verifier_from cy t (ok_public_der ok b) (openssl_new_der cy ok t b)
  /\ openssl_verifier_from cy t (ok_public_pem ok b) (openssl_new_pem cy ok t b)
  /\ openssl_new_pkcs8_pem cy ok t b = openssl_new_pkcs8 cy ok t b.
Proof. exact openssl_constructors. Qed.
Print Assumptions C82_openssl_constructors.
(** ... there is no ECDSA ... *)
Theorem C82_openssl_no_ecdsa : forall (cy : crypto) (key : str),
  openssl_signer cy EcdsaP256Sha256 key = None /\ openssl_verifier cy EcdsaP256Sha256 key = None.
Proof. exact openssl_no_ecdsa. Qed.
Print Assumptions C82_openssl_no_ecdsa.
(** ... signatures verify with the key of the pair, whatever constructors the keys came
    from, for each library ... *)
Theorem C82_openssl_round_trip : forall (cy : crypto) (ok : openssl_keys) (private public : str) (t : key_type) (sg : http_signer) (vf : http_verifier) (rnd : N) (msg : str),
  key_pair cy (openssl_uses t) private public -> openssl_signs cy ok t private sg -> openssl_verifies cy ok t public vf -> vf_verify vf msg (sg_sign sg rnd msg) = true.
Proof. exact openssl_round. Qed.
Print Assumptions C82_openssl_round_trip.
Theorem C82_ring_round_trip : forall (cy : crypto) (rk : ring_keys) (private public : str) (t : key_type) (sg : http_signer) (vf : http_verifier) (rnd : N) (msg : str),
  key_pair cy (scheme_of t) private public -> ring_signs cy rk t private sg -> ring_verifies cy t public vf -> vf_verify vf msg (sg_sign sg rnd msg) = true.
Proof. exact ring_round. Qed.
Print Assumptions C82_ring_round_trip.
(** ... and between the libraries for the PKCS#1 types ... *)
Theorem C82_between_libraries_partial : forall (cy : crypto) (ok : openssl_keys) (rk : ring_keys) (private public : str) (t : key_type)
    (sg sg' : http_signer) (vf vf' : http_verifier) (rnd : N) (msg : str),
  t = RsaSha256 \/ t = RsaSha512 -> key_pair cy (scheme_of t) private public ->
  openssl_signs cy ok t private sg -> openssl_verifies cy ok t public vf -> ring_signs cy rk t private sg' -> ring_verifies cy t public vf' ->
  vf_verify vf' msg (sg_sign sg rnd msg) = true /\ vf_verify vf msg (sg_sign sg' rnd msg) = true.
Proof. exact both_libraries. Qed.
Print Assumptions C82_between_libraries_partial.
(** ... but not for the PSS types: what one library signs the other rejects, unless the
    signatures of the two schemes coincide (with RSA: the digest ends with a certain byte, C91). *)
Theorem C82_pss_between_libraries_refuted : forall (cy : crypto) (ok : openssl_keys) (rk : ring_keys) (private public : str) (t : key_type)
    (sg sg' : http_signer) (vf vf' : http_verifier) (rnd : N) (msg : str),
  t = RsaPssSha256 \/ t = RsaPssSha512 -> schemes_differ cy (openssl_uses t) (scheme_of t) private public rnd msg ->
  openssl_signs cy ok t private sg -> openssl_verifies cy ok t public vf -> ring_signs cy rk t private sg' -> ring_verifies cy t public vf' ->
  vf_verify vf' msg (sg_sign sg rnd msg) = false /\ vf_verify vf msg (sg_sign sg' rnd msg) = false.
Proof. exact (fun cy ok rk sk pk t sg sg' vf vf' rnd msg _ => between_pss cy ok rk sk pk t sg sg' vf vf' rnd msg). Qed.
Print Assumptions C82_pss_between_libraries_refuted.
(** Primitives whose tags name the scheme and the key; keys are read as they are. *)
Definition tag_of (s : scheme) (k m : str) : str :=
  match s with PKCS1_SHA256 => $"1" | PKCS1_SHA512 => $"2" | PSS_SHA256 => $"3" | PSS_SHA512 => $"4" | ECDSA_P256_SHA256 => $"5" end ++ k ++ m.
Definition tags : crypto := Crypto (fun s k _ m => tag_of s k m) (fun s k m x => str_eqb x (tag_of s k m)).
Example C82_case : let ok := OpensslKeys Some Some Some Some Some in let rk := RingKeys Some Some Some in
  (forall s, key_pair tags s $"k" $"k") /\ (forall s s' rnd msg, s <> s' -> schemes_differ tags s s' $"k" $"k" rnd msg)
  /\ forall t, t = RsaSha512 \/ t = RsaPssSha256 ->
     exists sg vf sg' vf', openssl_signs tags ok t $"k" sg /\ openssl_verifies tags ok t $"k" vf /\ ring_signs tags rk t $"k" sg' /\ ring_verifies tags t $"k" vf'.
Proof.
  split; [intros s rnd msg; apply StrFacts.str_eqb_refl|]. split.
  - intros s s' rnd msg N. split; cbn [cy_verify cy_sign tags]; apply StrFacts.str_eqb_neq; destruct s, s'; try contradiction; discriminate.
  - intros t [-> | ->]; eexists _, _, _, _; (split; [now apply (os_pem _ _ _ _ _ $"k")|]; split; [now apply (ov_der _ _ _ _ _ $"k")|]; split; [now apply (rs_pkcs8 _ _ _ _ _ $"k")|now apply rv_der]).
Qed.

(** C83: what a chain of [with_param] calls makes: the name, and the parameters as a map in
    order of first setting, each with the value last set. *)
Theorem C83_parameters : forall (n : str) (calls : list (str * str)),
  exists ps, map_of calls ps /\ dc_item (made n calls) = Item (BString n) (map (fun kv => (fst kv, BString (snd kv))) ps)
    /\ dc_name (made n calls) = Done n /\ forall k, dc_param (made n calls) k = value_of k (rev calls).
Proof. exact made_params. Qed.
Print Assumptions C83_parameters.
(** How it is written, when it is; otherwise printing it panics. *)
Theorem C83_printed : forall (n : str) (calls ps : list (str * str)) (t : str), map_of calls ps ->
  (comp_to_string (CDerived (made n calls)) = Done t <-> writable n ps /\ t = quoted n ++ List.concat (map param_of ps)).
Proof. exact made_prints. Qed.
Print Assumptions C83_printed.
Theorem C83_panics : forall (n : str) (calls ps : list (str * str)), map_of calls ps ->
  (comp_to_string (CDerived (made n calls)) = Panic <-> ~ writable n ps).
Proof. exact made_panics. Qed.
Print Assumptions C83_panics.
(** The text is read back as the very component. *)
Theorem C83_read_back : forall (n : str) (calls ps : list (str * str)) (t : str), map_of calls ps -> ~ In [] (map fst calls) ->
  comp_to_string (CDerived (made ("@"%char :: n) calls)) = Done t -> comp_from_str t = Ok (CDerived (made ("@"%char :: n) calls)).
Proof. exact made_parses. Qed.
Print Assumptions C83_read_back.
(** A [@query-params] component covers the parameter last named. *)
Theorem C83_query_params : forall (calls : list (str * str)) (r : rq) (m : mock) (qs qs' : list (str * str)),
  query_params (url_query (rq_url r)) qs -> query_params (url_query (mr_url m)) qs' ->
  let c := CDerived (made $"@query-params" calls) in
  match value_of $"name" (rev calls) with
  | Some n => rq_derive r c = Done (Some (lines (values_named n qs))) /\ mr_derive m c = Done (Some (lines (values_named n qs')))
  | None => rq_derive r c = Done None /\ mr_derive m c = Done None
  end.
Proof. exact made_query. Qed.
Print Assumptions C83_query_params.
(** [to_header_name] of a component read from a text: the header field it spells. *)
Theorem C83_header_name : forall (s h : str) (c : component), comp_from_str s = Ok c -> (comp_to_header_name c = Some h <-> spelled s h).
Proof. exact header_name_of. Qed.
Print Assumptions C83_header_name.
(** The constants name the draft's components and fields: each reads as a text, and the text as it. *)
Theorem C83_constants :
  Forall2 (fun k n => comp_to_string (CDerived (dc_new k)) = Done (quoted n) /\ comp_from_str (quoted n) = Ok (CDerived (dc_new k)))
    [AT_SIGNATURE_PARAMS; AT_METHOD; AT_TARGET_URI; AT_AUTHORITY; AT_SCHEME; AT_REQUEST_TARGET; AT_PATH; AT_QUERY; AT_QUERY_PARAMS;
     AT_STATUS; AT_REQUEST_RESPONSE] draft_components
  /\ Forall2 (fun k n => comp_to_string (CHeader k) = Done n /\ comp_from_str n = Ok (CHeader k))
    [h_content_digest; h_digest; h_signature; h_signature_input] draft_fields.
Proof. split; repeat constructor; vm_compute; reflexivity. Qed.
Print Assumptions C83_constants.
Example C83_case : let calls := [($"name", $"x"); ($"key", $"2"); ($"name", s2b "a""b")] in
  map_of calls [($"name", s2b "a""b"); ($"key", $"2")] /\ writable $"@query-params" [($"name", s2b "a""b"); ($"key", $"2")]
  /\ comp_to_string (CDerived (made $"@query-params" calls)) = Done (s2b """@query-params"";name=""a\""b"";key=""2""")
  /\ ~ writable $"@x" [($"Name", $"x")].
Proof.
  split; [split; [reflexivity|]|].
  - intro k. cbn [value_of rev app]. destruct (list_eq_dec ascii_dec $"name" k) as [<-|N]; [reflexivity|].
    now destruct (list_eq_dec ascii_dec $"key" k).
  - assert (P : comp_to_string (CDerived (made $"@query-params" [($"name", $"x"); ($"key", $"2"); ($"name", s2b "a""b")])) = Done (s2b """@query-params"";name=""a\""b"";key=""2""")) by (vm_compute; reflexivity).
    split; [|split; [exact P|]].
    + eapply MakeFacts.made_prints; [|exact P]. split; [reflexivity|]. intro k. cbn [value_of rev app].
      destruct (list_eq_dec ascii_dec $"name" k) as [<-|N]; [reflexivity|]. now destruct (list_eq_dec ascii_dec $"key" k).
    + intros [_ F]. inversion F as [|? ? [[K _] _] _]; subst. cbn [fst] in K. inversion K as [|? ? L _]; subst.
      destruct L as [L|[L|L]]; [destruct L; cbn in *; lia|destruct L; cbn in *; lia|]. repeat (destruct L as [L|L]; [discriminate|]). exact L.
Qed.
