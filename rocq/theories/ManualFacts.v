(** Lemmas for C87. *)
From Verif Require Import StrFacts SpecManual CliMore CliInfo RunFacts OptFacts LineFacts PipeFacts PemFacts SpecFacts SignFacts Samples KeyPipe.
From Verif Require BuildFacts RoundTrip SignFacts.

Lemma simple_escaped (s : str) : simple_text s -> List.concat (map escaped s) = s.
Proof.
  induction 1 as [|c s (V & Q & B) _ IH]; [reflexivity|]. cbn [map List.concat]. rewrite IH. unfold escaped.
  destruct (Ascii.eqb_spec c """") as [->|_]; [now contradiction Q|]. destruct (Ascii.eqb_spec c "\") as [->|_]; [now contradiction B|]. reflexivity.
Qed.
Lemma simple_string (s : str) : simple_text s -> string_text s (in_quotes s).
Proof.
  intro H. split; [eapply Forall_impl; [|exact H]; now intros c (V & _)|]. rewrite (simple_escaped s H). reflexivity.
Qed.
Lemma tchar_simple (c : ascii) : tchar c -> visible c /\ c <> ch_quote /\ c <> "\"%char.
Proof.
  intro T. assert (C : forall c, In c (map ascii_of_nat (seq 0 256))).
  { intro d. rewrite <- (ascii_nat_embedding d). apply in_map, in_seq. pose proof (nat_ascii_bounded d). lia. }
  unfold visible. destruct T as [L|[D|O]].
  - unfold letter in L. split; [lia|]. split; intros ->; vm_compute in L; intuition (congruence || lia).
  - unfold digit in D. split; [lia|]. split; intros ->; vm_compute in D; intuition (congruence || lia).
  - unfold one_of in O. cbn in O. repeat (destruct O as [<-|O]; [split; [vm_compute; split; congruence|split; discriminate]|]). destruct O.
Qed.
Lemma name_simple (h : str) : header_name h -> simple_text h.
Proof. intros (_ & _ & T). eapply Forall_impl; [|exact T]. intros c [C _]. now apply tchar_simple. Qed.
Lemma known_simple (a : str) : In a known_names -> simple_text a.
Proof.
  intro I. cbn [known_names In] in I.
  repeat (destruct I as [<-|I]; [repeat (constructor; [split; [vm_compute; split; congruence|split; discriminate]|]); constructor|]). destruct I.
Qed.

(** ** The command lines *)
Lemma readme_canon (hs a k : str) : separate hs -> separate a -> separate k ->
  cli_parse (canon_args a k hs) = CliRun (Opt MCanonicalize None (Some (Some hs)) (Some k) None None (Some $"sig") (Some a) None None None).
Proof.
  intros Hh Ha Hk. change (canon_args a k hs) with
    (line [] $"canonicalize" [short_setting OLabel $"sig"; short_setting OAlgorithm a; short_setting OKeyId k; short_setting OHeaders hs] []).
  rewrite (cli_line MCanonicalize $"canonicalize"); [reflexivity|constructor|constructor| |intros b x Q; destruct b; discriminate Q|now left].
  repeat (apply Forall_cons; [|]); [| | | |constructor].
  - apply (short_setting_ok OLabel $"sig"). right. discriminate.
  - now apply (short_setting_ok OAlgorithm).
  - now apply (short_setting_ok OKeyId).
  - now apply (short_setting_ok OHeaders).
Qed.
Lemma known_separate (a : str) : In a known_names -> separate a.
Proof. intro I. right. intros t ->. cbn [known_names In] in I. repeat (destruct I as [I|I]; [discriminate I|]). destruct I. Qed.
Lemma piped_request (w : world) (o : opt) (stdin : str) (r : mock) : op_in_file o = None -> piped w stdin r -> run_request w o stdin r.
Proof. intros E P. exists stdin. split; [|exact P]. unfold run_input. now rewrite E. Qed.

(** ** The texts *)
Definition comps (fields : list (str * str)) : list component := map (fun f => CHeader (fst f)) fields.
Lemma given_fields (r : mock) (hs : str) (fields : list (str * str)) (o : opt) : named_fields r hs fields -> op_headers o = Some (Some hs) ->
  given o (Some (comps fields)).
Proof.
  intros (ws & W & S & _) E. apply (given_words _ hs ws); auto. unfold comps. revert ws W S. induction fields as [|f fs IH]; intros ws W S.
  - inversion S. subst. constructor.
  - inversion S as [|x h xs hs' S1 S2]. subst. cbn [map]. constructor; [left; eauto|]. clear IH W S. revert xs S2. induction fs as [|g fs IH]; intros xs S2; inversion S2; subst; constructor; [left; eauto|auto].
Qed.
Lemma fields_names (r : mock) (hs : str) (fields : list (str * str)) : named_fields r hs fields -> Forall (fun f => simple_text (fst f)) fields.
Proof.
  intros (ws & _ & S & _). revert ws S. induction fields as [|f fs IH]; intros ws S; constructor; inversion S; subst; [|eauto].
  apply name_simple. eapply BuildFacts.spelled_name; eassumption.
Qed.
Lemma inner_fields (fields : list (str * str)) (p : list (str * bare)) (pt : str) : Forall (fun f => simple_text (fst f)) fields -> params_text p pt ->
  inner_text (map component_item (comps fields)) p (field_list fields ++ pt).
Proof.
  intros S P. exists (map (fun f => in_quotes (fst f)) fields), pt. split; [|split; [exact P|]].
  - unfold comps. induction S as [|f fs F _ IH]; cbn [map]; constructor; [|exact IH]. exists (in_quotes (fst f)), []. cbn [component_item it_bare it_params].
    split; [now apply simple_string|]. split; [constructor|]. now rewrite app_nil_r.
  - unfold field_list. now rewrite <- !app_assoc.
Qed.
Lemma lines_last (l : list str) (x : str) : lines (l ++ [x]) = List.concat (map (fun s => s ++ [ch_lf]) l) ++ x.
Proof.
  induction l as [|y l IH]; [reflexivity|]. cbn [map List.concat app]. rewrite <- app_assoc, <- IH, <- !app_assoc. cbn [lines]. destruct l; reflexivity.
Qed.
Lemma base_fields (r : mock) (hs : str) (fields : list (str * str)) (p : list (str * bare)) (pt : str) : named_fields r hs fields -> params_text p pt ->
  signature_base (mr_derive r) (comps fields) p (field_lines fields ++ in_quotes $"@signature-params" ++ $": " ++ field_list fields ++ pt).
Proof.
  intros N P. exists (map (fun f => in_quotes (fst f)) fields), (map snd fields), (field_list fields ++ pt).
  split; [|split; [|split]].
  - unfold comps. clear N. induction fields as [|f fs IH]; cbn [map]; constructor; [reflexivity|exact IH].
  - destruct N as (ws & _ & _ & V). unfold comps. induction V as [|f fs [F L] _ IH]; cbn [map]; constructor; [|exact IH]. apply mr_header_derive. now left.
  - apply inner_fields; [now apply (fields_names r hs)|exact P].
  - rewrite lines_last. f_equal. unfold field_lines. clear. induction fields as [|f fs IH]; [reflexivity|]. cbn [map combine List.concat]. rewrite <- IH.
    cbn [fst snd]. rewrite <- !app_assoc. reflexivity.
Qed.
Lemma key_keyid : key_text $"keyid" $"keyid". Proof. split; [|split; [intros c k' E; injection E as <- _; left; vm_compute; split; congruence|reflexivity]]. repeat (constructor; [left; vm_compute; split; congruence|]); constructor. Qed.
Lemma key_alg : key_text $"alg" $"alg". Proof. split; [|split; [intros c k' E; injection E as <- _; left; vm_compute; split; congruence|reflexivity]]. repeat (constructor; [left; vm_compute; split; congruence|]); constructor. Qed.
Lemma canon_params_text (k a : str) : simple_text k -> simple_text a ->
  params_text [($"keyid", BString k); ($"alg", BString a)] ($";keyid=" ++ in_quotes k ++ $";alg=" ++ in_quotes a).
Proof.
  intros K A. apply (pt_value $"keyid" (BString k) [($"alg", BString a)] $"keyid" (in_quotes k) ($";alg=" ++ in_quotes a)); [discriminate|exact key_keyid|now apply simple_string|].
  replace ($";alg=" ++ in_quotes a) with ([";"%char] ++ $"alg" ++ ["="%char] ++ in_quotes a ++ []) by now rewrite app_nil_r.
  apply (pt_value $"alg" (BString a) [] $"alg" (in_quotes a) []); [discriminate|exact key_alg|now apply simple_string|constructor].
Qed.
Lemma sign_params_text (k a : str) : simple_text k -> simple_text a ->
  params_text [($"alg", BString a); ($"keyid", BString k)] ($";alg=" ++ in_quotes a ++ $";keyid=" ++ in_quotes k).
Proof.
  intros K A. apply (pt_value $"alg" (BString a) [($"keyid", BString k)] $"alg" (in_quotes a) ($";keyid=" ++ in_quotes k)); [discriminate|exact key_alg|now apply simple_string|].
  replace ($";keyid=" ++ in_quotes k) with ([";"%char] ++ $"keyid" ++ ["="%char] ++ in_quotes k ++ []) by now rewrite app_nil_r.
  apply (pt_value $"keyid" (BString k) [] $"keyid" (in_quotes k) []); [discriminate|exact key_keyid|now apply simple_string|constructor].
Qed.

(** ** canonicalize *)
Lemma manual_canon (w : world) (a k hs stdin : str) (r : mock) (fields : list (str * str)) (se : sign_env) (ve : verify_env) :
  In a known_names -> separate k -> separate hs -> simple_text k -> piped w stdin r -> named_fields r hs fields ->
  program w (canon_args a k hs) stdin se ve = EndRun (Done (Ok (canon_output fields k a))).
Proof.
  intros A K H S P N. unfold program. rewrite (readme_canon hs a k H (known_separate a A) K). f_equal.
  apply run_canonicalize; [reflexivity|]. eapply canon_printed; [apply piped_request; [reflexivity|exact P]|eapply canon_ok; [reflexivity|exact A|]|].
  - eapply given_fields; [exact N|reflexivity].
  - cbn [cc_components cc_params or_else op_created op_expires op_nonce op_key_id opt_params app]. apply (base_fields r hs fields); [exact N|].
    apply canon_params_text; [exact S|now apply known_simple].
Qed.

(** ** sign *)
Lemma loads_announced (a a' : str) (t : key_type) : loads a t -> announced a a' -> a' = ring_name t.
Proof. intros L [[N ->]|[-> ->]]; inversion L; subst; try reflexivity; try discriminate. now contradiction N. Qed.
Lemma manual_sign (w : world) (a a' k hs p pem stdin : str) (r : mock) (t : key_type) (key : http_signer) (fields : list (str * str)) (se : sign_env) (ve : verify_env) :
  loads a t -> announced a a' -> separate k -> separate hs -> separate p -> simple_text k ->
  w_read w p = Some pem -> sign_new_pkcs8_pem (w_crypto w) (w_ring w) t pem = Some key ->
  piped w stdin r -> shown r -> named_fields r hs fields -> sys_clock_ok (se_sys se) ->
  program w (sign_args hs a k p) stdin se ve = EndRun (Done (Ok (request_text
    (mr_set_header (mr_set_header r $"signature-input" ($"sig=" ++ input_output fields k a')) $"signature"
       ($"sig=:" ++ sg_sign key (se_rnd se) (signed_text fields k a') ++ $":"))))).
Proof.
  intros L A K H Pr S R Ky P Sh N C. pose proof (loads_known a t L) as In. unfold program. rewrite (readme_sign hs a k p H (known_separate a In) K Pr). f_equal.
  destruct (sign_new_inv _ _ _ _ _ Ky) as [kb ->]. rewrite (loads_announced a a' t L A).
  apply run_sign; [exact C|reflexivity|].
  set (o := Opt _ _ _ _ _ _ _ _ _ _ _).
  assert (G : sign_opts w o (Ok (SigningConfig $"sig" (ring_signer (w_crypto w) t kb) sha256_digest k None (comps fields) false false false false CrOmit ExOmit))).
  { apply (sign_ok w o a t pem (ring_signer (w_crypto w) t kb) (Some (comps fields))); auto; [now exists p|]. eapply given_fields; [exact N|reflexivity]. }
  assert (St : simple_text (ring_name t)).
  { apply known_simple. inversion L; subst; cbn; auto 10. }
  pose proof (sign_params_text k (ring_name t) S St) as Pt.
  pose proof (base_fields r hs fields _ _ N Pt) as B.
  pose proof (inner_fields fields _ _ (fields_names r hs fields N) Pt) as I.
  unfold signed_text, input_output.
  match goal with |- sign_run _ _ _ _ _ (Done (Ok (request_text ?x))) => change x with
    (signed_request r (SigningConfig $"sig" (ring_signer (w_crypto w) t kb) sha256_digest k None (comps fields) false false false false CrOmit ExOmit) (se_rnd se)
       (field_list fields ++ $";alg=" ++ in_quotes (ring_name t) ++ $";keyid=" ++ in_quotes k)
       (field_lines fields ++ in_quotes $"@signature-params" ++ $": " ++ field_list fields ++ $";alg=" ++ in_quotes (ring_name t) ++ $";keyid=" ++ in_quotes k)) end.
  assert (PS : plain (signature_text (SigningConfig $"sig" (ring_signer (w_crypto w) t kb) sha256_digest k None (comps fields) false false false false CrOmit ExOmit) (se_rnd se)
       (field_lines fields ++ in_quotes $"@signature-params" ++ $": " ++ field_list fields ++ $";alg=" ++ in_quotes (ring_name t) ++ $";keyid=" ++ in_quotes k))).
  { apply RoundTrip.signature_text_plain; [apply ReqFacts.plain_iff; reflexivity|]. apply RoundTrip.b64_plain. }
  eapply sign_printed; [apply piped_request; [reflexivity|exact P]|exact G| |exact B|apply plain_legal; exact PS|exact I|].
  - split; intros (z & Z & _); discriminate Z.
  - assert (PI : plain ($"sig=" ++ field_list fields ++ $";alg=" ++ in_quotes (ring_name t) ++ $";keyid=" ++ in_quotes k)).
    { eapply (SignFacts.input_text_plain). exact I. }
    unfold signed_request, shown. apply Forall_forall. intros x X. cbn [mr_set_header mr_headers] in X.
    apply MockFacts.hm_insert_in in X. destruct X as [->|X]; [exact PS|]. apply MockFacts.hm_insert_in in X. destruct X as [->|X]; [exact PI|].
    unfold shown in Sh. rewrite Forall_forall in Sh. now apply Sh.
Qed.

(** ** A header that is missing *)
Lemma missing_derive (r : mock) (h : str) : first_value (mr_headers r) h = None -> mr_derive r (CHeader h) = Done None.
Proof.
  intro F. cbn [mr_derive]. rewrite first_value_get in F. now rewrite F.
Qed.
Lemma given_missing (r : mock) (hs : str) (o : opt) (oc : option (list component)) : op_headers o = Some (Some hs) -> names_missing r hs -> given o oc ->
  exists q, In q (or_else [] oc) /\ mr_derive r q = Done None.
Proof.
  intros E (ws & n & h & W & I & S & F) G. destruct G as [G|G|x ws' cs G W' C]; try congruence. assert (x = hs) by congruence. subst x.
  assert (ws' = ws) by (apply MockFacts.words_iff in W, W'; congruence). subst ws'. cbn [or_else]. clear W W'. exists (CHeader h). split; [|now apply missing_derive].
  induction C as [|y c ys cs Y _ IH]; [destruct I|]. destruct I as [->|I]; [left|right; now apply IH].
  apply component_text_iff in Y. apply spelled_component in S. congruence.
Qed.
Lemma manual_missing_canon (w : world) (a k hs stdin : str) (r : mock) (se : sign_env) (ve : verify_env) :
  separate a -> separate k -> separate hs -> piped w stdin r -> names_missing r hs ->
  exists e, program w (canon_args a k hs) stdin se ve = EndRun (Done (Err e)).
Proof.
  intros A K H P M. unfold program. rewrite (readme_canon hs a k H A K). set (o := Opt _ _ _ _ _ _ _ _ _ _ _).
  assert (R : run_request w o stdin r) by (apply piped_request; [reflexivity|exact P]).
  pose proof (canon_opts_sound o) as S. destruct (canonicalize_config o) as [cc|e].
  - exists VSig. f_equal. apply run_canonicalize; [reflexivity|]. inversion S as [a' oc A' I G E| | |]. subst cc.
    destruct (given_missing r hs o oc eq_refl M G) as (q & Iq & D). eapply canon_missing; [exact R|exact S|exact Iq|exact D].
  - exists e. f_equal. apply run_canonicalize; [reflexivity|]. eapply canon_refused; eassumption.
Qed.
Lemma manual_missing_sign (w : world) (a k hs p stdin : str) (r : mock) (se : sign_env) (ve : verify_env) :
  separate a -> separate k -> separate hs -> separate p -> piped w stdin r -> names_missing r hs -> sys_clock_ok (se_sys se) ->
  exists e, program w (sign_args hs a k p) stdin se ve = EndRun (Done (Err e)).
Proof.
  intros A K H Pr P M C. unfold program. rewrite (readme_sign hs a k p H A K Pr). set (o := Opt _ _ _ _ _ _ _ _ _ _ _).
  assert (R : run_request w o stdin r) by (apply piped_request; [reflexivity|exact P]).
  pose proof (sign_opts_sound w o) as S. destruct (signing_config_of w o) as [c|e].
  - exists VSig. f_equal. apply run_sign; [exact C|reflexivity|]. pose proof S as S'. inversion S' as [a' t pem key oc A' L Kf Ks G E| | | | | | |]. subst c.
    destruct (given_missing r hs o oc eq_refl M G) as (q & Iq & D).
    eapply sign_missing_value; [exact R|exact S| |exact Iq|exact D]. split; intros (z & Z & _); discriminate Z.
  - exists e. f_equal. apply run_sign; [exact C|reflexivity|]. eapply sign_refused; eassumption.
Qed.

(** ** The request of the README has no Digest header *)
Lemma basic_frames (r : mock) : frames basic_request r -> first_value (mr_headers r) $"digest" = None.
Proof.
  intro F. apply MockFacts.frames_iff in F.
  assert (E : forall u, from_reader false (fun _ => Ok u) basic_request = Done (Some (MockReq HTTP_11 $"POST" u $"/foo?param=value&pet=dog"
    [($"host", $"example.com"); ($"date", $"Tue, 20 Apr 2021 02:07:55 GMT"); ($"content-type", $"application/json");
     ($"content-digest", $"sha-256=:X48E9qOokqqrvdts8nOJRJN3OWDUoyWxBf7kbu9DBPE=:"); ($"example-dict", $"a=(1 2), b=3, c=4;aa=bb, d=(5 6);valid"); ($"content-length", $"18")]
    (Some (s2b "{""hello"": ""world""}"))))) by (intro u; vm_compute; reflexivity).
  rewrite E in F. injection F as <-. reflexivity.
Qed.
Lemma manual_basic (w : world) (a k p out : str) (se : sign_env) (ve : verify_env) :
  separate a -> separate k -> separate p -> sys_clock_ok (se_sys se) ->
  program w (sign_args $"host date digest" a k p) basic_request se ve <> EndRun (Done (Ok out)).
Proof.
  intros A K Pr C E.
  assert (H : separate $"host date digest") by (right; discriminate).
  assert (E' : exists o, cli_parse (sign_args $"host date digest" a k p) = CliRun o /\ op_in_file o = None) by (eexists; split; [now apply readme_sign|reflexivity]).
  destruct E' as (o & Eo & In0). assert (R : run w o basic_request se ve = Done (Ok out)) by (unfold program in E; rewrite Eo in E; now injection E).
  destruct (run_request_dec w o basic_request) as [[r R0]|U]; [|rewrite (unread_run w o basic_request se ve U) in R; discriminate].
  assert (P : piped w basic_request r). { destruct R0 as (i & I & F). unfold run_input in I. rewrite In0 in I. now subst i. }
  destruct (manual_missing_sign w a k $"host date digest" p basic_request r se ve A K H Pr P) as [e X]; [|exact C|congruence].
  exists [$"host"; $"date"; $"digest"], $"digest", $"digest". split; [|split; [cbn; auto|split]].
  - apply MockFacts.words_iff. vm_compute. reflexivity.
  - apply spelled_iff. vm_compute. reflexivity.
  - apply basic_frames. now destruct P.
Qed.

(** ** verify *)
Lemma empty_unread (w : world) (o : opt) (se : sign_env) (ve : verify_env) : op_in_file o = None -> run w o [] se ve = Panic.
Proof.
  intro E. apply unread_run. intros r (i & I & F & _). unfold run_input in I. rewrite E in I. subst i.
  apply MockFacts.frames_iff in F. vm_compute in F. discriminate.
Qed.
Lemma verify_silent (w : world) (o : opt) (stdin out : str) (e : option verror) (se : sign_env) (ve : verify_env) :
  op_mode o = MVerify -> main w o stdin se ve = Done (out, e) -> out = [].
Proof.
  intros M. unfold main. rewrite M. destruct (match op_in_file o with Some f => unwrap (w_read w f) | None => Done stdin end) as [i|]; cbn [obind]; [|discriminate].
  destruct (from_reader (w_trace w) (w_url w) i) as [[r|]|]; cbn [obind unwrap]; try discriminate.
  destruct (verification_config_of w o) as [c|x]; [|congruence]. destruct (verify mr_server r c ve) as [[x|x]|]; cbn [obind]; congruence.
Qed.

(** ** Keys without a PEM block *)
Lemma scan_text (m s before rest : str) : scan m s before rest -> s = before ++ m ++ rest.
Proof. induction 1 as [|p d m' c s before rest E N _ IH]; [reflexivity|]. rewrite IH, <- !app_assoc. reflexivity. Qed.
Lemma no_block (cy : crypto) (rk : ring_keys) (t : key_type) (text : str) : (forall x y, text <> x ++ $"-----BEGIN " ++ y) ->
  sign_new_pkcs8_pem cy rk t text = None.
Proof.
  intro N. apply (proj2 (pem_constructors cy rk t text)). intros l d (b & s1 & s2 & bl & s3 & da & s4 & af & tt & S & _). apply scan_text in S. exact (N b s1 S).
Qed.
Lemma manual_der (w : world) (a k hs p file stdin out : str) (se : sign_env) (ve : verify_env) :
  separate a -> separate k -> separate hs -> separate p -> w_read w p = Some file -> (forall x y, file <> x ++ $"-----BEGIN " ++ y) ->
  program w (sign_args hs a k p) stdin se ve <> EndRun (Done (Ok out)).
Proof.
  intros A K H Pr R N E. unfold program in E. rewrite (readme_sign hs a k p H A K Pr) in E. injection E as E. revert E. set (o := Opt _ _ _ _ _ _ _ _ _ _ _). intro E.
  apply run_read in E. destruct E as (r & _ & E). cbn [op_mode o] in E. destruct (signing_config_of w o) as [c|e] eqn:S; [|discriminate].
  apply sign_opts_iff in S. inversion S as [a' t pem key oc A' L (f & F1 & F2) Ks G X| | | | | | |]. cbn [op_private_key o] in F1. injection F1 as <-.
  rewrite R in F2. injection F2 as <-. rewrite (no_block _ _ _ _ N) in Ks. discriminate.
Qed.

(** ** The pipeline *)
Lemma manual_silent (w : world) (a k p out : str) (e : option verror) (o : opt) (se : sign_env) (ve : verify_env) :
  separate a -> separate k -> separate p -> sys_clock_ok (se_sys se) ->
  command_line (sign_args $"host date digest" a k p) o -> main w o basic_request se ve = Done (out, e) -> out = [] /\ e <> None.
Proof.
  intros A K Pr C O M. apply cli_iff in O. assert (H : separate $"host date digest") by (right; discriminate).
  pose proof (manual_basic w a k p out se ve A K Pr C) as B. unfold program in B. rewrite O in B.
  rewrite (readme_sign _ a k p H A K Pr) in O. injection O as <-. set (o := Opt _ _ _ _ _ _ _ _ _ _ _) in *.
  destruct e as [e|]; [|exfalso; apply B; f_equal; now apply successful_output]. split; [|discriminate].
  destruct out as [|x out]; [reflexivity|exfalso].
  assert (N : main w o basic_request se ve = Done (x :: out, Some e) /\ x :: out <> []) by (split; [exact M|discriminate]).
  apply (failing_output w o basic_request se ve (x :: out) e C) in N. destruct N as (_ & _ & r & c & base & sp & R & S & _ & SB & _).
  inversion S as [a' t pem key oc A' L Kf Ks G E| | | | | | |]. subst c.
  assert (Ms : names_missing r $"host date digest").
  { exists [$"host"; $"date"; $"digest"], $"digest", $"digest". split; [|split; [cbn; auto|split]].
    - apply MockFacts.words_iff. vm_compute. reflexivity.
    - apply spelled_iff. vm_compute. reflexivity.
    - apply basic_frames. destruct R as (i & I & F & _). cbn in I. now subst i. }
  destruct (given_missing r $"host date digest" o oc eq_refl Ms G) as (q & Iq & D).
  exact (base_missing _ _ _ _ _ SB Iq D).
Qed.
Lemma manual_pipe (w : world) (a k p u out : str) (e : option verror) (o : opt) (se se' : sign_env) (ve ve' : verify_env) :
  separate a -> separate k -> separate p -> separate u -> sys_clock_ok (se_sys se) ->
  command_line (sign_args $"host date digest" a k p) o -> main w o basic_request se ve = Done (out, e) ->
  program w (verify_args a k u) out se' ve' = EndRun Panic.
Proof.
  intros A K P U C O M. destruct (manual_silent w a k p out e o se ve A K P C O M) as [-> _].
  unfold program. rewrite (readme_verify a k u A K U). apply (f_equal EndRun). now apply empty_unread.
Qed.

(** ** The signed request *)
Definition signed_headers : list (str * str) :=
  [($"content-type", $"application/json"); ($"content-length", $"18"); ($"digest", $"sha-256=X48E9qOokqqrvdts8nOJRJN3OWDUoyWxBf7kbu9DBPE=");
   ($"signature-input", s2b "sig=(""host"" ""date"" ""digest"");alg=""rsa-v1_5-sha256"";keyid=""test-key-rsa""");
   ($"example-dict", $"a=(1 2), b=3, c=4;aa=bb, d=(5 6);valid"); ($"date", $"Tue, 20 Apr 2021 02:07:55 GMT"); ($"host", $"example.com");
   ($"signature", $"sig=:" ++ hello_signature ++ $":")].
Definition hello_request (u : url) (body : str) : mock := MockReq HTTP_11 $"POST" u hello_url signed_headers (Some body).
Lemma hello_reads (u : url) : from_reader false (fun _ => Ok u) (shipped_request hello_world) = Done (Some (hello_request u hello_world)).
Proof. vm_compute. reflexivity. Qed.
Lemma hello_reads_lf (u : url) : from_reader false (fun _ => Ok u) (shipped_request (hello_world ++ [ch_lf])) = Done (Some (hello_request u (hello_world ++ [ch_lf]))).
Proof. vm_compute. reflexivity. Qed.
Lemma shipped_digest : first_digest default_digest_provider (split "," $"sha-256=X48E9qOokqqrvdts8nOJRJN3OWDUoyWxBf7kbu9DBPE=") = Some (sha256_digest, $"X48E9qOokqqrvdts8nOJRJN3OWDUoyWxBf7kbu9DBPE=").
Proof. reflexivity. Qed.
Lemma hello_digest_lf : str_eqb $"X48E9qOokqqrvdts8nOJRJN3OWDUoyWxBf7kbu9DBPE=" (dg_digest sha256_digest (hello_world ++ [ch_lf])) = false.
Proof. vm_compute. reflexivity. Qed.
Lemma manual_shipped (w : world) (a k u out : str) (se : sign_env) (ve : verify_env) : separate a -> separate k -> separate u ->
  program w (verify_args a k u) (shipped_request (hello_world ++ [ch_lf])) se ve <> EndRun (Done (Ok out)).
Proof.
  intros A K U E. unfold program in E. rewrite (readme_verify a k u A K U) in E. set (o := Opt _ _ _ _ _ _ _ _ _ _ _) in E.
  assert (R : run w o (shipped_request (hello_world ++ [ch_lf])) se ve = Done (Ok out)) by congruence. clear E.
  destruct (run_request_dec w o (shipped_request (hello_world ++ [ch_lf]))) as [[r R0]|N]; [|rewrite (unread_run _ _ _ _ _ N) in R; discriminate].
  rewrite (run_request_run _ _ _ _ se ve R0) in R. destruct R0 as (i & I & F & _). cbn in I. subst i.
  apply MockFacts.frames_iff in F. rewrite hello_reads_lf in F.
  assert (Er : exists x, r = hello_request x (hello_world ++ [ch_lf])) by (exists (mr_url r); congruence). clear F. destruct Er as [x ->].
  unfold run_on in R. cbn [op_mode o] in R.
  destruct (verify_opts_sound w o) as (y & _ & Ag). unfold opts_agree in Ag.
  destruct (verification_config_of w o) as [c|e]; [|discriminate]. destruct y as [keys|]; [|contradiction].
  destruct Ag as (_ & D & _ & _ & V & _).
  unfold verify in R. destruct (verify_except_digest mr_server _ c ve) as [[kid|]|]; cbn [obind] in R; try discriminate.
  change (rl_derive (sr_rl mr_server) (hello_request x (hello_world ++ [ch_lf])) (CHeader h_digest))
    with (Done (Some $"sha-256=X48E9qOokqqrvdts8nOJRJN3OWDUoyWxBf7kbu9DBPE=")) in R.
  cbn [obind] in R. rewrite V, D, shipped_digest in R.
  cbn [sr_complete_with_digest mr_server] in R. unfold mr_complete_with_digest in R. cbn [hello_request mr_body] in R.
  rewrite hello_digest_lf in R. discriminate R.
Qed.
Lemma hello_verify (u : url) (keys : key_provider) (leeway : Z) (vf : http_verifier) (ve : verify_env) : sys_clock_ok (ve_sys ve) -> keys $"test-key-rsa" = [vf] ->
  verify mr_server (hello_request u hello_world) (VerifyingConfig keys default_digest_provider [] false true false leeway) ve
  = if vf_verify vf hello_base hello_signature then Done (Ok (tt, $"test-key-rsa")) else Done (Err tt).
Proof.
  intros C K. unfold verify, verify_except_digest, verify_signature_only. rewrite (unix_timestamp_ok _ C). generalize (seconds (ve_sys ve)). clear C. intro now.
  destruct vf as [n f]. cbn [vf_verify]. vm_compute in K. destruct (f hello_base hello_signature) eqn:F; vm_compute in F; vm_compute; rewrite K, F; reflexivity.
Qed.
Lemma manual_hello (w : world) (u text label key : str) (x : url) (se : sign_env) (ve : verify_env) :
  separate u -> w_read w u = Some text -> pem_file text label key -> rsa_public_key key -> w_url w hello_url = Ok x -> sys_clock_ok (ve_sys ve) ->
  (program w (verify_args $"rsa-v1_5-sha256" $"test-key-rsa" u) (shipped_request hello_world) se ve = EndRun (Done (Ok []))
   <-> exists tag, hello_signature = b64_bits tag /\ cy_verify (w_crypto w) PKCS1_SHA256 key hello_base tag = true).
Proof.
  intros U Rd P Sp Ur C. unfold program. rewrite (readme_verify _ _ u) by (exact U || (right; discriminate)).
  set (o := Opt _ _ _ _ _ _ _ _ _ _ _).
  destruct (validator_pkcs1 w o _ RsaSha256 text label key eq_refl loads_15_256) as (c & vf & E & Kc & V); [now exists u|exact P|exact Sp|].
  assert (R : run_request w o (shipped_request hello_world) (hello_request x hello_world)).
  { exists (shipped_request hello_world). split; [reflexivity|]. split; [apply MockFacts.frames_iff, hello_reads|].
    split; [intros _; apply GrowFacts.plain_utf8, ReqFacts.plain_iff; vm_compute; reflexivity|left; exact Ur]. }
  rewrite (run_request_run _ _ _ _ se ve R). unfold run_on. cbn [op_mode o]. rewrite E.
  destruct (verify_opts_sound w o) as (y & _ & Ag). unfold opts_agree in Ag. rewrite E in Ag. destruct y as [keys|]; [|contradiction].
  destruct Ag as (_ & D & Rq & Rd' & Vd & Da). destruct c as [ks dp rq rd vd da lw].
  cbn [vc_digests vc_required vc_require_digest vc_validate_digest vc_validate_date vc_keys] in *. subst.
  cbn [op_key_id o or_else] in Kc. rewrite (hello_verify x ks lw vf ve C Kc).
  destruct V as (vf' & Ev & _ & V). injection Ev as <-. change (scheme_of RsaSha256) with PKCS1_SHA256 in V. rewrite <- (V hello_base hello_signature).
  destruct (vf_verify vf hello_base hello_signature); cbn [obind]; split; congruence.
Qed.
