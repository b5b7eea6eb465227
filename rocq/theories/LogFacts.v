(** Lemmas about Logging.v. *)
From Verif Require Export SpecLog VerifyFacts.

Lemma parse_log_ok (s : str) (cc : canon_config) : cc_parse s = Done (Ok cc) -> parse_log s = [].
Proof.
  unfold cc_parse, si_parse, parse_log. destruct (parse_dictionary s) as [[|[label [it|l]] rest]|]; try discriminate; reflexivity.
Qed.
Lemma lbind_snd {A B} (x : logged A) (f : A -> logged B) : snd (lbind x f) = obind (snd x) (fun a => snd (f a)).
Proof. unfold lbind. destruct (snd x); reflexivity. Qed.

Section Log.
  Context {S Rem : Type} (sr : server_request_like S Rem) (r : S) (c : verifying_config) (env : verify_env).

  (** ** Writing changes nothing *)
  Lemma signature_only_log_snd : snd (signature_only_log sr r c env) = verify_signature_only sr r c env.
  Proof.
    unfold signature_only_log, verify_signature_only, oobind, quietly, signature_log. rewrite lbind_snd. cbn [snd].
    destruct (rl_derive (sr_rl sr) r (CHeader h_signature_input)) as [[input|]|]; cbn [obind or_log snd]; try reflexivity.
    rewrite lbind_snd. cbn [snd]. destruct (cc_parse input) as [[cc|e]|]; cbn [obind]; rewrite ?lbind_snd; cbn [snd obind]; try reflexivity.
    rewrite lbind_snd. cbn [snd].
    destruct (rl_derive (sr_rl sr) r (CHeader h_signature)) as [[sigv|]|]; cbn [obind or_log snd]; try reflexivity.
    destruct (parse_signature_header sigv) as [[lab sig]|]; cbn [or_log snd obind]; [|reflexivity].
    destruct (negb _); [reflexivity|]. destruct (cc_keyid cc) as [kid|]; cbn [or_log obind]; [|reflexivity].
    destruct (cc_alg cc) as [alg|]; cbn [or_log obind]; [|reflexivity]. rewrite lbind_snd. cbn [snd].
    destruct (unix_timestamp _) as [ts|]; cbn [obind]; [|reflexivity].
    destruct (match cc_created cc with Some t => _ | None => _ end); [reflexivity|].
    destruct (match cc_expires cc with Some t => _ | None => _ end); [reflexivity|].
    destruct (vc_keys c kid) as [|k ks]; [reflexivity|]. rewrite lbind_snd. cbn [snd].
    destruct (canonicalize _ _ _) as [[[base si]|e]|]; cbn [obind]; try reflexivity.
    destruct (existsb _ _); reflexivity.
  Qed.
  Lemma required_log_snd (l : inner_list) (req : list component) : snd (required_log l req) = check_required l req.
  Proof.
    induction req as [|q req IH]; cbn [required_log check_required]; [reflexivity|]. rewrite lbind_snd. cbn [snd quietly].
    destruct (comp_to_string q) as [t|]; cbn [obind]; [|reflexivity]. destruct (cl_get_item l t); [exact IH|reflexivity].
  Qed.
  Lemma date_log_snd (si : signature_input) : snd (date_log si c env) = check_date si c env.
  Proof.
    unfold date_log, check_date. destruct (vc_validate_date c); [|reflexivity]. destruct (opt_bind _ _) as [d|]; [|reflexivity].
    destruct (chrono_range d); [|reflexivity]. rewrite lbind_snd. cbn [snd quietly]. destruct (utc_now _) as [now|]; cbn [obind]; [|reflexivity].
    destruct (_ <=? _)%Z; reflexivity.
  Qed.
  Lemma except_digest_log_snd : snd (except_digest_log sr r c env) = verify_except_digest sr r c env.
  Proof.
    unfold except_digest_log, verify_except_digest, oobind. rewrite lbind_snd, signature_only_log_snd.
    destruct (verify_signature_only sr r c env) as [[[si kid]|]|]; cbn [obind or_log snd]; try reflexivity.
    rewrite lbind_snd, required_log_snd. destruct (check_required _ _) as [[|]|]; cbn [obind negb]; try reflexivity.
    rewrite lbind_snd, date_log_snd. reflexivity.
  Qed.
  Lemma verify_log_snd : snd (verify_log sr r c env) = verify sr r c env.
  Proof.
    unfold verify_log, verify. rewrite lbind_snd, except_digest_log_snd.
    destruct (verify_except_digest sr r c env) as [[kid|]|]; cbn [obind]; try reflexivity.
    rewrite lbind_snd. cbn [snd quietly]. destruct (rl_derive (sr_rl sr) r (CHeader h_digest)) as [[dv|]|]; cbn [obind]; try reflexivity.
    - destruct (vc_validate_digest c); [|reflexivity]. destruct (first_digest _ _) as [[alg v]|]; [|reflexivity].
      destruct (sr_complete_with_digest sr r alg) as [[ex|] rem]; [|reflexivity]. destruct (str_eqb v ex); reflexivity.
    - destruct (vc_require_digest c); [|reflexivity].
      destruct (sr_complete_with_digest sr r sha256_digest) as [[ex|] rem]; reflexivity.
  Qed.

  (** ** The lines of the signature check *)
  Hypothesis Hsys : sys_clock_ok (ve_sys env).

  Lemma no_string (o : option bare) : opt_bind o as_str = None <-> forall s, o <> Some (BString s).
  Proof. destruct o as [[]|]; cbn; split; try congruence; intros H; exfalso; eapply H; reflexivity. Qed.
  Lemma no_integer (o : option bare) : opt_bind o as_int = None <-> forall z, o <> Some (BInteger z).
  Proof. destruct o as [[]|]; cbn; split; try congruence; intros H; exfalso; eapply H; reflexivity. Qed.
  Lemma keyid_iff (cc : canon_config) : cc_keyid cc = opt_bind (value_of $"keyid" (cc_params cc)) as_str.
  Proof. unfold cc_keyid, sp_get_keyid. now rewrite value_of_get. Qed.
  Lemma alg_iff (cc : canon_config) : cc_alg cc = opt_bind (value_of $"alg" (cc_params cc)) as_str.
  Proof. unfold cc_alg, sp_get_alg. now rewrite value_of_get. Qed.
  Lemma created_iff (cc : canon_config) : cc_created cc = opt_bind (value_of $"created" (cc_params cc)) as_int.
  Proof. unfold cc_created, sp_get_created. now rewrite value_of_get. Qed.
  Lemma expires_iff (cc : canon_config) : cc_expires cc = opt_bind (value_of $"expires" (cc_params cc)) as_int.
  Proof. unfold cc_expires, sp_get_expires. now rewrite value_of_get. Qed.

  Lemma late_iff (cc : canon_config) :
    match cc_created cc with Some t => (seconds (ve_sys env) <? t)%Z | None => false end = true
    <-> exists t, value_of $"created" (cc_params cc) = Some (BInteger t) /\ (seconds (ve_sys env) < t)%Z.
  Proof.
    rewrite created_iff. destruct (opt_bind _ as_int) as [t|] eqn:E.
    - apply as_int_bare in E. rewrite E. split; [intro; exists t; split; [reflexivity|lia]|].
      intros (t' & X & L). injection X as <-. lia.
    - rewrite no_integer in E. split; [discriminate|]. intros (t & X & _). now apply E in X.
  Qed.
  Lemma past_iff (cc : canon_config) :
    match cc_expires cc with Some t => (t <? seconds (ve_sys env))%Z | None => false end = true
    <-> exists t, value_of $"expires" (cc_params cc) = Some (BInteger t) /\ (t < seconds (ve_sys env))%Z.
  Proof.
    rewrite expires_iff. destruct (opt_bind _ as_int) as [t|] eqn:E.
    - apply as_int_bare in E. rewrite E. split; [intro; exists t; split; [reflexivity|lia]|].
      intros (t' & X & L). injection X as <-. lia.
    - rewrite no_integer in E. split; [discriminate|]. intros (t & X & _). now apply E in X.
  Qed.
  Lemma no_equals (v : str) : parse_signature_header v = None <-> ~ In "="%char v.
  Proof.
    unfold parse_signature_header. destruct (split_once "=" v) as [[l w]|] eqn:E.
    - apply split_once_spec in E. destruct E as [-> _]. split; [discriminate|]. intro H. exfalso. apply H.
      apply in_or_app. right. now left.
    - split; [|reflexivity]. intros _ H. apply in_split in H. destruct H as (a & b & ->).
      revert E. clear. induction a as [|x a IH]; cbn [app split_once]; [rewrite Ascii.eqb_refl; discriminate|].
      destruct (Ascii.eqb x "="%char); [discriminate|]. destruct (split_once "=" (a ++ "="%char :: b)) as [[? ?]|]; [discriminate|auto].
  Qed.

  (** The part of the function after each stage. *)
  Let after_times (cc : canon_config) (sig kid alg : str) : logged (option (signature_input * str)) :=
    match vc_keys c kid with
    | [] => ([LogUnknownKey kid alg], Done None)
    | keys =>
        ldo res <- quietly (canonicalize (sr_rl sr) r cc);
        match res with
        | Err e => ([LogCanonicalization e], Done None)
        | Ok (base, si) =>
            if existsb (fun k => vf_verify k base sig) keys then ([], Done (Some (si, kid)))
            else (match keys with [] => [LogNoKeys] | _ => [LogInvalidSignature] end, Done None)
        end
    end.
  Let after_pair (cc : canon_config) (sig : str) : logged (option (signature_input * str)) :=
    lask kid <- cc_keyid cc orlog [LogNoKeyid];
    lask alg <- cc_alg cc orlog [LogNoAlg];
    ldo ts <- quietly (unix_timestamp (ve_sys env));
    if match cc_created cc with Some t => (ts <? t)%Z | None => false end then ([LogCreated], Done None)
    else if match cc_expires cc with Some t => (t <? ts)%Z | None => false end then ([LogExpires], Done None)
    else after_times cc sig kid alg.
  Let after_input (cc : canon_config) : logged (option (signature_input * str)) :=
    ldo osig <- quietly (rl_derive (sr_rl sr) r (CHeader h_signature));
    lask sigv <- osig orlog [LogNoSignature];
    lask (sig_label, sig) <- parse_signature_header sigv orlog signature_log;
    if negb (str_eqb (cc_get_label cc) sig_label) then ([LogLabels], Done None) else after_pair cc sig.

  Lemma log_quiet {A B} (x : A) (f : A -> logged B) : lbind (quietly (Done x)) f = f x.
  Proof. unfold lbind, quietly, log_then. cbn [fst snd app]. now destruct (f x). Qed.

  Lemma at_input (cc : canon_config) : input_is sr r cc -> signature_only_log sr r c env = after_input cc.
  Proof.
    intros (input & Hi & Hr). unfold signature_only_log. unfold header_value in Hi. change h_signature_input with $"signature-input".
    rewrite Hi, log_quiet. cbn [or_log]. apply cc_parse_iff in Hr. rewrite (parse_log_ok _ _ Hr), Hr.
    change ([], Done (Ok cc)) with (quietly (Done (Ok cc : result canon_config error))). rewrite log_quiet, log_quiet. reflexivity.
  Qed.
  Lemma at_pair (cc : canon_config) (sig : str) : paired sr r cc sig -> signature_only_log sr r c env = after_pair cc sig.
  Proof.
    intros [Hi (v & Hv & Hm)]. rewrite (at_input cc Hi). unfold after_input. unfold header_value in Hv. change h_signature with $"signature".
    rewrite Hv, log_quiet. cbn [or_log]. apply signature_member_iff in Hm. rewrite Hm. cbn [or_log]. now rewrite str_eqb_refl.
  Qed.
  Lemma headers_paired (cc : canon_config) (sig kid : str) : signature_headers sr r cc sig kid <->
    paired sr r cc sig /\ value_of $"keyid" (cc_params cc) = Some (BString kid)
    /\ exists alg, value_of $"alg" (cc_params cc) = Some (BString alg).
  Proof.
    unfold signature_headers, paired, input_is. split.
    - intros (i & s & H1 & H2 & H3 & H4 & H5 & H6). split; [split; eauto|]. auto.
    - intros ([(i & H1 & H2) (s & H3 & H4)] & H5 & H6). exists i, s. auto 6.
  Qed.
  Lemma at_headers (cc : canon_config) (sig kid alg : str) :
    signature_headers sr r cc sig kid -> value_of $"alg" (cc_params cc) = Some (BString alg) ->
    signature_only_log sr r c env =
    if match cc_created cc with Some t => (seconds (ve_sys env) <? t)%Z | None => false end then ([LogCreated], Done None)
    else if match cc_expires cc with Some t => (t <? seconds (ve_sys env))%Z | None => false end then ([LogExpires], Done None)
    else after_times cc sig kid alg.
  Proof.
    intros H A. apply headers_paired in H. destruct H as (H & K & _). rewrite (at_pair cc sig H). unfold after_pair.
    rewrite keyid_iff, alg_iff, K, A. cbn [opt_bind as_str or_log]. rewrite (unix_timestamp_ok _ Hsys), log_quiet. reflexivity.
  Qed.
  Lemma times_no (cc : canon_config) : times_ok env cc <->
    match cc_created cc with Some t => (seconds (ve_sys env) <? t)%Z | None => false end = false
    /\ match cc_expires cc with Some t => (t <? seconds (ve_sys env))%Z | None => false end = false.
  Proof.
    rewrite <- !Bool.not_true_iff_false, late_iff, past_iff. unfold times_ok. split.
    - intros [H1 H2]. split; intros (t & E & L); [apply H1 in E|apply H2 in E]; lia.
    - intros [H1 H2]. split; intros t E; apply Z.nlt_ge; intro L; [apply H1|apply H2]; eauto.
  Qed.
  Lemma at_times (cc : canon_config) (sig kid alg : str) :
    signature_headers sr r cc sig kid -> value_of $"alg" (cc_params cc) = Some (BString alg) -> times_ok env cc ->
    signature_only_log sr r c env = after_times cc sig kid alg.
  Proof. intros H A T. rewrite (at_headers cc sig kid alg H A). apply times_no in T. destruct T as [-> ->]. reflexivity. Qed.

  Lemma signature_lines (l : list log_line) :
    signature_only_log sr r c env = (l, Done None) <-> bad_signature sr r c env l.
  Proof.
    split.
    - intro H. assert (D : exists o, rl_derive (sr_rl sr) r (CHeader $"signature-input") = Done o).
      { unfold signature_only_log in H. change h_signature_input with $"signature-input" in H.
        destruct (rl_derive (sr_rl sr) r (CHeader $"signature-input")) as [o|] eqn:E; [eauto|]. discriminate. }
      destruct D as [[input|] Ei].
      2:{ unfold signature_only_log in H. change h_signature_input with $"signature-input" in H. rewrite Ei, log_quiet in H. cbn [or_log] in H.
          injection H as <-. now constructor. }
      assert (P : exists cc, input_is sr r cc).
      { unfold signature_only_log in H. change h_signature_input with $"signature-input" in H. rewrite Ei, log_quiet in H. cbn [or_log] in H.
        destruct (cc_parse input) as [[cc|e]|] eqn:Ep.
        - exists cc, input. split; [exact Ei|now apply cc_parse_iff].
        - apply (f_equal snd) in H. rewrite !lbind_snd in H. cbn [snd obind] in H. rewrite lbind_snd in H. discriminate.
        - apply (f_equal snd) in H. rewrite !lbind_snd in H. discriminate. }
      destruct P as [cc P]. rewrite (at_input cc P) in H. unfold after_input in H. change h_signature with $"signature" in H.
      destruct (rl_derive (sr_rl sr) r (CHeader $"signature")) as [[sigv|]|] eqn:Es; [| |discriminate]; rewrite log_quiet in H; cbn [or_log] in H.
      2:{ injection H as <-. eapply bad_no_signature; eassumption. }
      destruct (parse_signature_header sigv) as [[lab sig]|] eqn:Eh; cbn [or_log] in H.
      2:{ injection H as <-. eapply bad_malformed; [exact P|exact Es|]. now apply no_equals. }
      apply signature_member_iff in Eh. destruct (str_eqb (cc_get_label cc) lab) eqn:El; cbn [negb] in H.
      2:{ injection H as <-. eapply bad_labels; [exact P|exact Es|exact Eh|]. intros ->. rewrite str_eqb_refl in El. discriminate. }
      apply str_eqb_eq in El. subst lab. assert (Q : paired sr r cc sig) by (split; [exact P|eauto]).
      unfold after_pair in H. rewrite keyid_iff, alg_iff in H.
      destruct (opt_bind (value_of $"keyid" (cc_params cc)) as_str) as [kid|] eqn:Ek; cbn [or_log] in H.
      2:{ injection H as <-. eapply bad_keyid; [exact Q|]. now apply no_string. }
      apply as_str_bare in Ek. destruct (opt_bind (value_of $"alg" (cc_params cc)) as_str) as [alg|] eqn:Ea; cbn [or_log] in H.
      2:{ injection H as <-. eapply bad_alg; [exact Q|exact Ek|]. now apply no_string. }
      apply as_str_bare in Ea. assert (HH : signature_headers sr r cc sig kid) by (apply headers_paired; eauto).
      rewrite (unix_timestamp_ok _ Hsys), log_quiet in H.
      destruct (match cc_created cc with Some t => _ | None => _ end) eqn:E1.
      { injection H as <-. apply late_iff in E1. destruct E1 as (t & E & L). eapply bad_created; eassumption. }
      destruct (match cc_expires cc with Some t => _ | None => _ end) eqn:E2.
      { injection H as <-. apply past_iff in E2. destruct E2 as (t & E & L). eapply bad_expires; try eassumption.
        intros t' E'. apply Z.nlt_ge. intro L'. apply Bool.not_true_iff_false in E1. apply E1, late_iff. eauto. }
      assert (T : times_ok env cc) by (apply times_no; auto).
      unfold after_times in H. destruct (vc_keys c kid) as [|k ks] eqn:K.
      { injection H as <-. eapply bad_key; eassumption. }
      destruct (canonicalize (sr_rl sr) r cc) as [[[base si]|e]|] eqn:Ec; [| |discriminate]; rewrite log_quiet in H.
      + destruct (existsb _ _) eqn:Ex; [discriminate|]. injection H as <-. apply canonicalize_ok in Ec. destruct Ec as [Eb _].
        eapply bad_text; try eassumption; [rewrite K; discriminate|]. intros k0 I. rewrite K in I.
        apply Bool.not_true_iff_false. intro V. apply Bool.not_true_iff_false in Ex. apply Ex, existsb_key. eauto.
      + injection H as <-. apply canonicalize_err in Ec. destruct Ec as (os & F & N & ->).
        eapply bad_missing; try eassumption; [rewrite K; discriminate|reflexivity].
    - intros [E|cc I E|cc v I E N|cc v lab sig I E M N|cc sig P K|cc sig kid P K A|cc sig kid t H E L|cc sig kid t H C E L
             |cc sig kid alg H T A K|cc sig kid os missing H T K F E N|cc sig kid base H T K B N].
      + unfold signature_only_log. change h_signature_input with $"signature-input". rewrite E, log_quiet. reflexivity.
      + rewrite (at_input cc I). unfold after_input. change h_signature with $"signature". rewrite E, log_quiet. reflexivity.
      + rewrite (at_input cc I). unfold after_input. change h_signature with $"signature". unfold header_value in E. rewrite E, log_quiet.
        cbn [or_log]. apply no_equals in N. rewrite N. reflexivity.
      + rewrite (at_input cc I). unfold after_input. change h_signature with $"signature". unfold header_value in E. rewrite E, log_quiet.
        cbn [or_log]. apply signature_member_iff in M. rewrite M. cbn [or_log].
        destruct (str_eqb (cc_get_label cc) lab) eqn:X; [|reflexivity]. apply str_eqb_eq in X. congruence.
      + rewrite (at_pair cc sig P). unfold after_pair. rewrite keyid_iff. apply no_string in K. rewrite K. reflexivity.
      + rewrite (at_pair cc sig P). unfold after_pair. rewrite keyid_iff, alg_iff, K. apply no_string in A. rewrite A. reflexivity.
      + pose proof H as H'. apply headers_paired in H'. destruct H' as (_ & _ & alg & A). rewrite (at_headers cc sig kid alg H A).
        rewrite (proj2 (late_iff cc)) by eauto. reflexivity.
      + pose proof H as H'. apply headers_paired in H'. destruct H' as (_ & _ & alg & A). rewrite (at_headers cc sig kid alg H A).
        rewrite (proj2 (past_iff cc)) by eauto.
        destruct (match cc_created cc with Some t => _ | None => _ end) eqn:E1; [|reflexivity].
        apply late_iff in E1. destruct E1 as (t' & E1 & L1). apply C in E1. lia.
      + rewrite (at_times cc sig kid alg H A T). unfold after_times. rewrite K. reflexivity.
      + pose proof H as H'. apply headers_paired in H'. destruct H' as (_ & _ & alg & A). rewrite (at_times cc sig kid alg H A T).
        unfold after_times. destruct (vc_keys c kid) as [|k ks]; [congruence|].
        assert (X : canonicalize (sr_rl sr) r cc = Done (Err (EMissingComponents missing))).
        { apply (proj1 (canonicalize_missing_iff (sr_rl sr) r cc os F)). auto. }
        rewrite X, log_quiet. reflexivity.
      + pose proof H as H'. apply headers_paired in H'. destruct H' as (_ & _ & alg & A). rewrite (at_times cc sig kid alg H A T).
        unfold after_times. destruct (vc_keys c kid) as [|k ks] eqn:Q; [congruence|].
        assert (X : canonicalize (sr_rl sr) r cc = Done (Ok (base, cc_to_signature_input cc))) by (apply canonicalize_ok; auto).
        rewrite X, log_quiet. destruct (existsb _ _) eqn:Ex; [|reflexivity]. apply existsb_key in Ex. destruct Ex as (k0 & I & V).
        rewrite N in V by exact I. discriminate.
  Qed.

  Lemma signature_quiet (l : list log_line) (si : signature_input) (kid : str) :
    signature_only_log sr r c env = (l, Done (Some (si, kid))) -> l = [].
  Proof.
    intro H. pose proof signature_only_log_snd as X. rewrite H in X. cbn [snd] in X. symmetry in X.
    apply (signature_only_iff sr r c env si kid Hsys) in X. destruct X as (cc & sig & HH & T & (base & k & B & I & V) & ->).
    pose proof HH as H'. apply headers_paired in H'. destruct H' as (_ & _ & alg & A). rewrite (at_times cc sig kid alg HH A T) in H.
    unfold after_times in H. destruct (vc_keys c kid) as [|k0 ks] eqn:Q; [contradiction I|].
    assert (X : canonicalize (sr_rl sr) r cc = Done (Ok (base, cc_to_signature_input cc))) by (apply canonicalize_ok; auto).
    rewrite X, log_quiet in H. destruct (existsb _ _); congruence.
  Qed.
  Lemma signature_good (si : signature_input) (kid : str) :
    signature_only_log sr r c env = ([], Done (Some (si, kid))) <->
    exists cc, good_signature sr r c env cc kid /\ si = cc_to_signature_input cc.
  Proof.
    split.
    - intro H. pose proof signature_only_log_snd as X. rewrite H in X. cbn [snd] in X. symmetry in X.
      apply (signature_only_iff sr r c env si kid Hsys) in X. destruct X as (cc & sig & HH & T & K & ->).
      exists cc. split; [exists sig; auto|reflexivity].
    - intros (cc & (sig & HH & T & K) & ->).
      assert (X : verify_signature_only sr r c env = Done (Some (cc_to_signature_input cc, kid))).
      { apply (signature_only_iff sr r c env _ _ Hsys). eauto 8. }
      rewrite <- signature_only_log_snd in X. destruct (signature_only_log sr r c env) as [l o] eqn:E. cbn [snd] in X. subst o.
      f_equal. exact (signature_quiet l _ _ E).
  Qed.

  (** ** Required components *)
  Lemma listed_iff (cc : canon_config) (q : component) (t : str) : comp_to_string q = Done t ->
    (cl_get_item (si_list (cc_to_signature_input cc)) t <> None <-> listed cc q).
  Proof.
    intro E. unfold cl_get_item, listed. rewrite cl_get_item_in_iff. rewrite comp_items_eq. split.
    - intros (i & I & B). exists t. split; [now apply comp_string_iff|]. exists i. split; [exact I|exact B].
    - intros (t' & M & i & I & B). apply comp_string_iff in M. rewrite E in M. injection M as <-. exists i. split; [exact I|exact B].
  Qed.
  Lemma listed_prints (cc : canon_config) (q : component) : listed cc q -> exists t, comp_to_string q = Done t.
  Proof. intros (t & M & _). exists t. now apply comp_string_iff. Qed.
  Lemma required_quiet (cc : canon_config) (req : list component) :
    required_log (si_list (cc_to_signature_input cc)) req = ([], Done true) <-> Forall (listed cc) req.
  Proof.
    induction req as [|q req IH]; cbn [required_log]; [split; constructor|]. split.
    - destruct (comp_to_string q) as [t|] eqn:E; [rewrite log_quiet|discriminate]. pose proof (listed_iff cc q t E) as L.
      destruct (cl_get_item _ t) as [x|]; [|discriminate]. intro H. constructor; [apply L; discriminate|]. now apply IH.
    - intro H. inversion H as [|? ? H1 H2]; subst. destruct (listed_prints cc q H1) as [t E]. rewrite E, log_quiet.
      pose proof (listed_iff cc q t E) as L. destruct (cl_get_item _ t) as [x|]; [now apply IH|]. apply L in H1. congruence.
  Qed.
  Lemma required_lines (cc : canon_config) (req : list component) (l : list log_line) (b : bool) :
    required_log (si_list (cc_to_signature_input cc)) req = (l, Done b) ->
    if b then l = [] /\ Forall (listed cc) req
    else exists before q after t, req = before ++ q :: after /\ Forall (listed cc) before /\ ~ listed cc q
      /\ match q with CHeader h => t = h | CDerived d => item_text (dc_item d) t end /\ l = [LogNotCovered t].
  Proof.
    revert l. induction req as [|q req IH]; intros l; cbn [required_log].
    - intro H. injection H as <- <-. split; constructor.
    - destruct (comp_to_string q) as [t|] eqn:E; [rewrite log_quiet|discriminate]. pose proof (listed_iff cc q t E) as L.
      destruct (cl_get_item _ t) as [x|].
      + intro H. apply IH in H. assert (Q : listed cc q) by (apply L; discriminate). destruct b.
        * destruct H as [-> H]. split; [reflexivity|now constructor].
        * destruct H as (before & q' & after & t' & -> & F & N & M & ->). exists (q :: before), q', after, t'.
          split; [reflexivity|]. split; [now constructor|]. auto.
      + intro H. injection H as <- <-. exists [], q, req, t. split; [reflexivity|]. split; [constructor|].
        split; [intro X; apply L in X; congruence|]. split; [now apply comp_string_iff|reflexivity].
  Qed.
  Lemma required_stops (cc : canon_config) (before : list component) (q : component) (after : list component) (t : str) :
    Forall (listed cc) before -> ~ listed cc q -> comp_to_string q = Done t ->
    required_log (si_list (cc_to_signature_input cc)) (before ++ q :: after) = ([LogNotCovered t], Done false).
  Proof.
    intros F N E. induction F as [|x before X F IH]; cbn [app required_log].
    - rewrite E, log_quiet. pose proof (listed_iff cc q t E) as L. destruct (cl_get_item _ t); [|reflexivity].
      exfalso. apply N, L. discriminate.
    - destruct (listed_prints cc x X) as [t' E']. rewrite E', log_quiet. pose proof (listed_iff cc x t' E') as L.
      destruct (cl_get_item _ t'); [exact IH|]. apply L in X. congruence.
  Qed.

  (** ** The date *)
  Hypothesis Hutc : vc_validate_date c = true -> utc_clock_ok (ve_utc env).

  Lemma date_lines (cc : canon_config) (l : list log_line) (b : bool) :
    date_log (cc_to_signature_input cc) c env = (l, Done b) <->
    if b then l = [] /\ date_ok c env cc
    else vc_validate_date c = true
      /\ (((forall d, value_of $"date" (cc_params cc) <> Some (BInteger d)) /\ l = [LogNoDate])
          \/ exists d, value_of $"date" (cc_params cc) = Some (BInteger d)
             /\ ((~ (first_date <= d <= last_date)%Z /\ l = [LogInvalidDate])
                 \/ (first_date <= d <= last_date)%Z /\ ~ (- vc_date_leeway c <= d * 1000000000 - ve_utc env <= vc_date_leeway c)%Z
                    /\ l = [LogDateSkew (d * 1000000000 - ve_utc env)])).
  Proof.
    unfold date_log, date_ok. destruct (vc_validate_date c).
    2:{ destruct b; split; try discriminate.
        - intro H. injection H as <-. split; [reflexivity|discriminate].
        - intros [-> _]. reflexivity.
        - intros [H _]. discriminate. }
    change (si_get_param (cc_to_signature_input cc) h_date) with (imap_get (cc_params cc) $"date").
    rewrite <- value_of_get. destruct (opt_bind (value_of $"date" (cc_params cc)) as_int) as [d|] eqn:E.
    - apply as_int_bare in E. rewrite E. rewrite (utc_now_ok _ (Hutc eq_refl)), log_quiet. change ns_per_sec with 1000000000%Z.
      unfold chrono_range. change chrono_min with first_date. change chrono_max with last_date.
      destruct ((first_date <=? d)%Z && (d <=? last_date)%Z) eqn:Cr.
      + destruct (Z.abs (d * 1000000000 - ve_utc env) <=? vc_date_leeway c)%Z eqn:Le; destruct b; split; try discriminate.
        * intro H. injection H as <-. split; [reflexivity|]. intros _. exists d. split; [reflexivity|]. lia.
        * intros [-> _]. reflexivity.
        * intros [_ [[H _]|(d' & X & [(H & _)|(_ & H & _)])]]; [exfalso; now apply (H d)|injection X as <-; lia|injection X as <-; lia].
        * intros [_ H]. destruct (H eq_refl) as (d' & X & H1 & H2). injection X as <-. lia.
        * intro H. injection H as <-. split; [reflexivity|]. right. exists d. split; [reflexivity|]. right. split; [lia|]. split; [lia|reflexivity].
        * intros [_ [[H _]|(d' & X & [(H & _)|(_ & H & ->)])]]; [exfalso; now apply (H d)|injection X as <-; lia|injection X as <-; reflexivity].
      + destruct b; split; try discriminate.
        * intros [_ H]. destruct (H eq_refl) as (d' & X & H1 & H2). injection X as <-. lia.
        * intro H. injection H as <-. split; [reflexivity|]. right. exists d. split; [reflexivity|]. left. split; [lia|reflexivity].
        * intros [_ [[H _]|(d' & X & [(H & ->)|(H & _)])]]; [exfalso; now apply (H d)|reflexivity|injection X as <-; lia].
    - rewrite no_integer in E. destruct b; split; try discriminate.
      + intros [_ H]. destruct (H eq_refl) as (d' & X & _). now apply E in X.
      + intro H. injection H as <-. split; [reflexivity|]. left. split; [exact E|reflexivity].
      + intros [_ [[_ ->]|(d' & X & _)]]; [reflexivity|now apply E in X].
  Qed.

  (** ** Everything but the digest *)
  Lemma except_quiet (kid : str) : (exists l, except_digest_log sr r c env = (l, Done (Some kid))) ->
    exists cc, good_signature sr r c env cc kid /\ Forall (listed cc) (vc_required c) /\ date_ok c env cc.
  Proof.
    intros [l H]. pose proof except_digest_log_snd as X. rewrite H in X. cbn [snd] in X. symmetry in X.
    apply (except_digest_iff sr r c env Hsys Hutc) in X. destruct X as (cc & sig & H1 & H2 & H3 & H4 & H5).
    exists cc. split; [exists sig; auto|auto].
  Qed.
  Lemma at_good (cc : canon_config) (kid : str) : good_signature sr r c env cc kid ->
    except_digest_log sr r c env =
    ldo req <- required_log (si_list (cc_to_signature_input cc)) (vc_required c);
    if negb req then ([], Done None)
    else ldo dt <- date_log (cc_to_signature_input cc) c env; quietly (Done (if dt then Some kid else None)).
  Proof.
    intro G. unfold except_digest_log. rewrite (proj2 (signature_good (cc_to_signature_input cc) kid)) by eauto.
    change ([], Done ?x) with (quietly (Done x)). rewrite log_quiet. reflexivity.
  Qed.
  Lemma at_required (cc : canon_config) (kid : str) : good_signature sr r c env cc kid -> Forall (listed cc) (vc_required c) ->
    except_digest_log sr r c env = ldo dt <- date_log (cc_to_signature_input cc) c env; quietly (Done (if dt then Some kid else None)).
  Proof.
    intros G F. rewrite (at_good cc kid G), (proj2 (required_quiet cc (vc_required c)) F).
    change ([], Done true) with (quietly (Done true)). rewrite log_quiet. reflexivity.
  Qed.
  Lemma at_date (cc : canon_config) (kid : str) : good_signature sr r c env cc kid -> Forall (listed cc) (vc_required c) ->
    date_ok c env cc -> except_digest_log sr r c env = ([], Done (Some kid)).
  Proof.
    intros G F D. rewrite (at_required cc kid G F). rewrite (proj2 (date_lines cc [] true)) by auto. reflexivity.
  Qed.

  Lemma lbind_done {A B} (x : logged A) (f : A -> logged B) (l : list log_line) (b : B) :
    lbind x f = (l, Done b) -> exists l1 a l2, x = (l1, Done a) /\ f a = (l2, Done b) /\ l = l1 ++ l2.
  Proof.
    unfold lbind, log_then. destruct x as [l1 [a|]]; cbn [fst snd]; [|discriminate]. destruct (f a) as [l2 o] eqn:E. cbn [fst snd].
    intro H. injection H as <- ->. exists l1, a, l2. auto.
  Qed.

  Lemma rejection_lines (l : list log_line) :
    (exists rem, verify_log sr r c env = (l, Done (Err rem))) <-> why sr r c env l.
  Proof.
    split.
    - intros [rem H]. unfold verify_log in H. apply lbind_done in H. destruct H as (l1 & o & l2 & E & H & ->).
      destruct o as [kid|].
      + destruct (except_quiet kid (ex_intro _ _ E)) as (cc & G & F & D). rewrite (at_date cc kid G F D) in E.
        injection E as <-. cbn [app]. apply lbind_done in H. destruct H as (l3 & od & l4 & E & H & ->).
        unfold quietly in E. change h_digest with $"digest" in E. injection E as <- E. cbn [app].
        destruct od as [dv|].
        * destruct (vc_validate_digest c) eqn:V; [|discriminate].
          destruct (first_digest (vc_digests c) (split "," dv)) as [[alg v]|] eqn:Fd.
          -- apply first_entry_iff in Fd. destruct (sr_complete_with_digest sr r alg) as [[ex|] rm] eqn:Q.
             ++ destruct (str_eqb v ex) eqn:T; [discriminate|]. injection H as <- _.
                eapply why_mismatch; try eassumption; [rewrite Q; reflexivity|]. intros ->. rewrite str_eqb_refl in T. discriminate.
             ++ injection H as <- _. eapply why_no_digest; try eassumption. rewrite Q. reflexivity.
          -- injection H as <- _. eapply why_no_algorithm; try eassumption. intros alg v X. apply first_entry_iff in X. congruence.
        * destruct (vc_require_digest c) eqn:V; [|discriminate].
          destruct (sr_complete_with_digest sr r sha256_digest) as [[ex|] rm] eqn:Q; [|discriminate].
          injection H as <- _. eapply why_digest_missing; try eassumption. rewrite Q. discriminate.
      + injection H as <- _. rewrite app_nil_r. unfold except_digest_log in E. apply lbind_done in E.
        destruct E as (l2 & o & l3 & E & H & ->). destruct o as [[si kid]|]; cbn [or_log] in H.
        2:{ injection H as <-. rewrite app_nil_r. apply why_signature, signature_lines. exact E. }
        pose proof (signature_quiet _ _ _ E) as ->. apply signature_good in E. destruct E as (cc & G & ->). cbn [app].
        apply lbind_done in H. destruct H as (l4 & b & l5 & E & H & ->). apply required_lines in E. destruct b; cbn [negb] in H.
        * destruct E as [-> F]. cbn [app]. apply lbind_done in H. destruct H as (l6 & b & l7 & E & H & ->).
          unfold quietly in H. injection H as <- H. destruct b; [discriminate|]. rewrite app_nil_r. apply date_lines in E.
          destruct E as [V [[N ->]|(d & X & [[N ->]|(B & N & ->)])]].
          -- eapply why_no_date; eassumption.
          -- eapply why_bad_date; eassumption.
          -- eapply why_skew; eassumption.
        * injection H as <-. rewrite app_nil_r. destruct E as (before & q & after & t & E & F & N & M & ->).
          eapply why_not_covered; eassumption.
    - assert (X : forall l, except_digest_log sr r c env = (l, Done None) -> exists rem, verify_log sr r c env = (l, Done (Err rem))).
      { intros l0 E. unfold verify_log. rewrite E. unfold lbind, log_then. cbn [fst snd]. rewrite app_nil_r. eauto. }
      assert (Y : forall kid, except_digest_log sr r c env = ([], Done (Some kid)) ->
        forall o, rl_derive (sr_rl sr) r (CHeader $"digest") = Done o ->
        verify_log sr r c env =
        match o with
        | Some dv =>
            if vc_validate_digest c then
              match first_digest (vc_digests c) (split "," dv) with
              | Some (alg, provided) =>
                  let '(od, rem) := sr_complete_with_digest sr r alg in
                  match od with
                  | Some expected => if str_eqb provided expected then ([], Done (Ok (rem, kid))) else ([LogDigestMismatch], Done (Err rem))
                  | None => ([LogNoDigest], Done (Err rem))
                  end
              | None => ([LogNoDigestAlgorithm], Done (Err (sr_complete sr r)))
              end
            else ([], Done (Ok (sr_complete sr r, kid)))
        | None =>
            if vc_require_digest c then
              let '(od, rem) := sr_complete_with_digest sr r sha256_digest in
              match od with Some _ => ([LogDigestMissing], Done (Err rem)) | None => ([], Done (Ok (rem, kid))) end
            else ([], Done (Ok (sr_complete sr r, kid)))
        end).
      { intros kid E o D. unfold verify_log. rewrite E. change ([], Done (Some kid)) with (quietly (Done (Some kid))). rewrite log_quiet.
        change h_digest with $"digest". rewrite D, log_quiet. reflexivity. }
      intros [l0 B|cc kid before q after t G E F N M|cc kid G F V N|cc kid d G F V E N|cc kid d G F V E B N
             |cc kid dv G F D V H N|cc kid dv alg v G F D V H E Q|cc kid dv alg v w G F D V H E Q N|cc kid G F D V H N].
      + apply X. unfold except_digest_log. apply signature_lines in B. rewrite B. unfold lbind, log_then. cbn [fst snd or_log].
        now rewrite app_nil_r.
      + apply X. rewrite (at_good cc kid G), E. apply comp_string_iff in M. rewrite (required_stops cc before q after t F N M). reflexivity.
      + apply X. rewrite (at_required cc kid G F). rewrite (proj2 (date_lines cc [LogNoDate] false)) by auto. reflexivity.
      + apply X. rewrite (at_required cc kid G F). rewrite (proj2 (date_lines cc [LogInvalidDate] false)); [reflexivity|].
        split; [exact V|]. right. exists d. auto.
      + apply X. rewrite (at_required cc kid G F).
        rewrite (proj2 (date_lines cc [LogDateSkew (d * 1000000000 - ve_utc env)] false)); [reflexivity|].
        split; [exact V|]. right. exists d. auto.
      + rewrite (Y kid (at_date cc kid G F D) _ H), V. destruct (first_digest _ _) as [[alg v]|] eqn:Z; [|eauto].
        apply first_entry_iff in Z. now apply N in Z.
      + rewrite (Y kid (at_date cc kid G F D) _ H), V. apply first_entry_iff in E. rewrite E.
        destruct (sr_complete_with_digest sr r alg) as [[ex|] rm]; [discriminate|]. eauto.
      + rewrite (Y kid (at_date cc kid G F D) _ H), V. apply first_entry_iff in E. rewrite E.
        destruct (sr_complete_with_digest sr r alg) as [[ex|] rm]; [|discriminate]. injection Q as ->.
        destruct (str_eqb v w) eqn:T; [apply str_eqb_eq in T; congruence|]. eauto.
      + rewrite (Y kid (at_date cc kid G F D) _ H), V.
        destruct (sr_complete_with_digest sr r sha256_digest) as [[ex|] rm]; [|now destruct N]. eauto.
  Qed.

  Lemma accepted_quiet (l : list log_line) (rem : Rem) (kid : str) :
    verify_log sr r c env = (l, Done (Ok (rem, kid))) -> l = [].
  Proof.
    intro H. unfold verify_log in H. apply lbind_done in H. destruct H as (l1 & o & l2 & E & H & ->).
    destruct o as [k|]; [|discriminate]. destruct (except_quiet k (ex_intro _ _ E)) as (cc & G & F & D).
    rewrite (at_date cc k G F D) in E. injection E as <-. cbn [app]. apply lbind_done in H.
    destruct H as (l3 & od & l4 & E & H & ->). unfold quietly in E. injection E as <- E. cbn [app].
    destruct od as [dv|].
    - destruct (vc_validate_digest c); [|congruence]. destruct (first_digest _ _) as [[alg v]|]; [|discriminate].
      destruct (sr_complete_with_digest sr r alg) as [[ex|] rm]; [|discriminate]. destruct (str_eqb v ex); congruence.
    - destruct (vc_require_digest c); [|congruence].
      destruct (sr_complete_with_digest sr r sha256_digest) as [[ex|] rm]; congruence.
  Qed.
End Log.

(** ** The keys *)
Section Keys.
  Context {S Rem : Type} (sr : server_request_like S Rem) (r : S) (c : verifying_config) (env : verify_env).

  Lemma log_same_keys (kp : key_provider) : same_acceptance (vc_keys c) kp ->
    verify_log sr r (with_keys c kp) env = verify_log sr r c env.
  Proof.
    intro H. assert (X : signature_only_log sr r (with_keys c kp) env = signature_only_log sr r c env).
    { assert (L : forall A B (x : logged A) (f g : A -> logged B), (forall a, f a = g a) -> lbind x f = lbind x g).
      { intros A B x f g E. unfold lbind. destruct (snd x); [now rewrite E|reflexivity]. }
      assert (O : forall A B l (x : option A) (f g : A -> logged (option B)), (forall a, f a = g a) -> or_log l x f = or_log l x g).
      { intros A B l x f g E. destruct x; [apply E|reflexivity]. }
      unfold signature_only_log. apply L. intro oi. apply O. intro input. apply L. intro parsed. apply L. intro cc. apply L. intro os.
      apply O. intro sigv. apply O. intros [lab sig]. destruct (negb _); [reflexivity|]. apply O. intro kid. apply O. intro alg.
      apply L. intro ts. destruct (match cc_created cc with Some t => _ | None => _ end); [reflexivity|].
      destruct (match cc_expires cc with Some t => _ | None => _ end); [reflexivity|].
      cbn [with_keys vc_keys]. destruct (H kid) as [H1 H2].
      destruct (vc_keys c kid) as [|k ks]; destruct (kp kid) as [|k' ks']; try reflexivity.
      - discriminate (proj1 H1 eq_refl).
      - discriminate (proj2 H1 eq_refl).
      - apply L. intros [[base si]|e]; [|reflexivity]. specialize (H2 base sig).
        destruct (existsb _ (k :: ks)) eqn:E1; destruct (existsb _ (k' :: ks')) eqn:E2; try reflexivity.
        + apply existsb_key, H2, existsb_key in E1. congruence.
        + apply existsb_key, H2, existsb_key in E2. congruence. }
    unfold verify_log, except_digest_log. rewrite X. reflexivity.
  Qed.
End Keys.

(** ** What a sender can make the log say *)
Section Sender.
  Context {S Rem : Type} (sr : server_request_like S Rem) (r : S) (c : verifying_config) (env : verify_env).

  Lemma string_visible (cc : canon_config) (k s : str) :
    input_is sr r cc -> value_of k (cc_params cc) = Some (BString s) -> Forall visible s.
  Proof.
    intros (input & _ & H) V. apply input_reads_rep in H. destruct H as (_ & _ & _ & F).
    revert V. induction F as [|[k' b] p [_ B] F IH]; cbn [value_of]; [discriminate|].
    destruct (list_eq_dec ascii_dec k' k); [|exact IH]. intro E. injection E as ->. exact B.
  Qed.
  Lemma unknown_key_visible (kid alg : str) : bad_signature sr r c env [LogUnknownKey kid alg] -> Forall visible kid /\ Forall visible alg.
  Proof.
    intro H. inversion H as [| | | | | | | |cc sig k a HH T A K| |]; subst.
    apply headers_paired in HH. destruct HH as ([I _] & V & _). split; eapply string_visible; eassumption.
  Qed.
  Lemma missing_written (e : error) : bad_signature sr r c env [LogCanonicalization e] ->
    exists cc missing, input_is sr r cc /\ e = EMissingComponents missing /\ forall q, In q missing -> In q (cc_components cc) /\ component_rep q.
  Proof.
    intro H. inversion H as [| | | | | | | | |cc sig k os missing HH T K F E N|]; subst.
    apply headers_paired in HH. destruct HH as ([I _] & _ & _). exists cc. eexists. split; [exact I|]. split; [reflexivity|].
    intros q Q. apply in_map_iff in Q. destruct Q as ([q' o] & <- & Q). apply filter_In in Q. destruct Q as [Q _]. apply in_combine_l in Q.
    split; [exact Q|]. destruct I as (input & _ & P). apply input_reads_rep in P. destruct P as (_ & P & _).
    rewrite Forall_forall in P. now apply P.
  Qed.
End Sender.

(** ** Panics *)
Section Panic.
  Context {S Rem : Type} (sr : server_request_like S Rem) (r : S) (c : verifying_config) (env : verify_env).

  Lemma parse_log_iff (s : str) :
    (parse_log s = [LogUnparsedInput] <-> forall d, ~ dictionary_reads s d)
    /\ (parse_log s = [LogMalformedInput] <-> dictionary_reads s [])
    /\ (parse_log s = [] <-> exists m rest, dictionary_reads s (m :: rest)).
  Proof.
    unfold parse_log. destruct (parse_dictionary s) as [[|m rest]|] eqn:E.
    - apply parse_dictionary_iff in E. split; [|split]; split; try discriminate; auto.
      + intro H. now apply H in E.
      + intros (m & rest & H). apply parse_dictionary_iff in E, H. congruence.
    - apply parse_dictionary_iff in E. split; [|split]; split; try discriminate; eauto.
      + intro H. now apply H in E.
      + intro H. apply parse_dictionary_iff in E, H. congruence.
    - split; [|split]; split; try discriminate; auto.
      + intros _ d H. apply parse_dictionary_iff in H. congruence.
      + intro H. apply parse_dictionary_iff in H. congruence.
      + intros (m & rest & H). apply parse_dictionary_iff in H. congruence.
  Qed.
  Lemma unreadable_lines (input : str) : header_value sr r $"signature-input" input ->
    ((forall d, ~ dictionary_reads input d) -> verify_log sr r c env = ([LogUnparsedInput; LogBadSignatureInput], Panic))
    /\ (dictionary_reads input [] -> verify_log sr r c env = ([LogMalformedInput; LogBadSignatureInput], Panic))
    /\ (forall key i others, dictionary_reads input ((key, LEItem i) :: others) -> verify_log sr r c env = ([LogBadSignatureInput], Panic))
    /\ (forall label items p i, first_member input label items p -> In i items -> (forall q, ~ reads_as i q) ->
          verify_log sr r c env = ([], Panic)).
  Proof.
    intro H. unfold header_value in H.
    assert (X : forall o, cc_parse input = o -> match o with Done (Ok _) => False | _ => True end ->
      verify_log sr r c env = (parse_log input ++ match o with Panic => [] | _ => [LogBadSignatureInput] end, Panic)).
    { intros o Eo No. unfold verify_log, except_digest_log, signature_only_log. change h_signature_input with $"signature-input".
      rewrite H, log_quiet. cbn [or_log]. rewrite Eo. destruct o as [[cc|e]|]; [contradiction| |]; cbn [lbind fst snd log_then].
      - reflexivity.
      - now rewrite app_nil_r. }
    destruct (parse_log_iff input) as (P1 & P2 & P3). destruct (si_parse_outcomes input) as (S1 & S2 & S3 & _).
    split; [|split; [|split]].
    - intro N. rewrite (X (Done (Err ESignatureInputParseError))); [| |exact I].
      + apply P1 in N. now rewrite N.
      + unfold cc_parse. apply S2 in N. now rewrite N.
    - intro N. rewrite (X (Done (Err ESignatureInputError))); [| |exact I].
      + apply P2 in N. now rewrite N.
      + unfold cc_parse. rewrite (proj2 S3); [reflexivity|now left].
    - intros key i others N. rewrite (X (Done (Err ESignatureInputError))); [| |exact I].
      + rewrite (proj2 P3) by eauto. reflexivity.
      + unfold cc_parse. rewrite (proj2 S3); [reflexivity|]. right. eauto.
    - intros label items p i M Ii N. rewrite (X Panic); [| |exact I].
      + destruct M as [others M]. rewrite (proj2 P3) by eauto. reflexivity.
      + apply cc_parse_panic. exists label, items, p, i. split; [exact M|]. split; [exact Ii|]. intros [q Q]. now apply (N q).
  Qed.
End Panic.

(** ** Corollaries *)
Section More.
  Context {S Rem : Type} (sr : server_request_like S Rem) (r : S) (c : verifying_config) (env : verify_env).
  Hypothesis Hclk : clocks_ok c env.

  Lemma why_log (l : list log_line) : (exists rem, verify_log sr r c env = (l, Done (Err rem))) <-> why sr r c env l.
  Proof. apply rejection_lines; apply Hclk. Qed.
  Lemma why_unique (l l' : list log_line) : why sr r c env l -> why sr r c env l' -> l = l'.
  Proof. intros H H'. apply why_log in H, H'. destruct H as [rem H]. destruct H' as [rem' H']. rewrite H in H'. now injection H'. Qed.
  Lemma why_lines (l : list log_line) : why sr r c env l ->
    (exists x, l = [x] /\ x <> LogNoKeys /\ x <> LogUnparsedInput /\ x <> LogMalformedInput /\ x <> LogBadSignatureInput)
    \/ l = [LogMalformedSignature; LogMalformedSignature].
  Proof.
    intros [l0 B| | | | | | | |]; try (left; eexists; repeat split; discriminate).
    destruct B; try (left; eexists; repeat split; discriminate). now right.
  Qed.
  Lemma log_texts (l : list log_line) (rem : Rem) : verify_log sr r c env = (l, Done (Err rem)) ->
    (forall kid alg, In (LogUnknownKey kid alg) l -> Forall visible kid /\ Forall visible alg)
    /\ (forall e, In (LogCanonicalization e) l -> exists cc missing, input_is sr r cc /\ e = EMissingComponents missing
          /\ forall q, In q missing -> In q (cc_components cc) /\ component_rep q)
    /\ (forall t, In (LogNotCovered t) l -> exists q, In q (vc_required c)
          /\ match q with CHeader h => t = h | CDerived d => item_text (dc_item d) t end).
  Proof.
    intro H. assert (W : why sr r c env l) by (apply why_log; eauto). clear H.
    assert (One : forall x, In x l -> l = [x] \/ x = LogMalformedSignature).
    { intros x I. apply why_lines in W. destruct W as [(y & -> & _)| ->].
      - destruct I as [->|[]]. now left.
      - right. destruct I as [<-|[<-|[]]]; reflexivity. }
    split; [|split].
    - intros kid alg I. destruct (One _ I) as [->|X]; [|discriminate]. inversion W as [l0 B| | | | | | | |]; subst.
      eapply unknown_key_visible; eassumption.
    - intros e I. destruct (One _ I) as [->|X]; [|discriminate]. inversion W as [l0 B| | | | | | | |]; subst.
      eapply missing_written; eassumption.
    - intros t I. destruct (One _ I) as [->|X]; [|discriminate].
      inversion W as [l0 B|cc kid before q after t0 G E F N M| | | | | | |]; subst; [inversion B|].
      exists q. split; [|exact M]. rewrite E. apply in_or_app. right. now left.
  Qed.
  Lemma verdict_log : (forall rem kid, verify sr r c env = Done (Ok (rem, kid)) -> verify_log sr r c env = ([], Done (Ok (rem, kid))))
    /\ (forall rem, verify sr r c env = Done (Err rem) -> exists l, verify_log sr r c env = (l, Done (Err rem)) /\ why sr r c env l).
  Proof.
    pose proof (verify_log_snd sr r c env) as X. split.
    - intros rem kid V. rewrite V in X. destruct (verify_log sr r c env) as [l o] eqn:E. cbn [snd] in X. subst o.
      f_equal. eapply accepted_quiet; [apply Hclk|apply Hclk|exact E].
    - intros rem V. rewrite V in X. destruct (verify_log sr r c env) as [l o] eqn:E. cbn [snd] in X. subst o.
      exists l. split; [reflexivity|]. apply why_log. eauto.
  Qed.
End More.
