(** Lemmas for C71. *)
From Verif Require Import Samples SpecRun PipeFacts FlowFacts GrowFacts SignFacts SignMore SignPanic DateFacts ReqFacts SpecAuto AutoFacts Witness.

Definition run_on (w : world) (o : opt) (r : mock) (se : sign_env) (ve : verify_env) : outcome (result str verror) :=
  match op_mode o with
  | MCanonicalize =>
      match canonicalize_config o with
      | Err e => Done (Err e)
      | Ok cc => do res <- canonicalize mr_rl r cc; Done (match res with Ok (base, _) => Ok base | Err _ => Err VSig end)
      end
  | MSign =>
      match signing_config_of w o with
      | Err e => Done (Err e)
      | Ok c => do (r', res) <- sign mr_client r c se;
          Done (match res with Err _ => Err VSig | Ok _ => match write r' with Some t => Ok t | None => Err VIo end end)
      end
  | MVerify =>
      match verification_config_of w o with
      | Err e => Done (Err e)
      | Ok c => do res <- verify mr_server r c ve; Done (match res with Ok _ => Ok [] | Err _ => Err VSig end)
      end
  end.
Lemma run_request_run (w : world) (o : opt) (stdin : str) (r : mock) (se : sign_env) (ve : verify_env) :
  run_request w o stdin r -> run w o stdin se ve = run_on w o r se ve.
Proof.
  intros (input & I & F). apply read_accepts in F. rewrite run_eq. unfold run_input in I.
  assert (E : match op_in_file o with Some f => unwrap (w_read w f) | None => Done stdin end = Done input).
  { destruct (op_in_file o) as [f|]; [rewrite I; reflexivity|congruence]. }
  rewrite E. cbn [obind]. rewrite F. reflexivity.
Qed.
Lemma unread_run (w : world) (o : opt) (stdin : str) (se : sign_env) (ve : verify_env) : unread w o stdin -> run w o stdin se ve = Panic.
Proof.
  intro N. rewrite run_eq. destruct (match op_in_file o with Some f => unwrap (w_read w f) | None => Done stdin end) as [input|] eqn:I; [|reflexivity].
  cbn [obind]. destruct (from_reader (w_trace w) (w_url w) input) as [[r|]|] eqn:F; cbn [obind unwrap]; try reflexivity.
  exfalso. apply (N r). exists input. split; [|now apply read_accepts]. unfold run_input. destruct (op_in_file o) as [f|]; [|congruence].
  destruct (w_read w f); cbn [unwrap] in I; congruence.
Qed.
Lemma run_request_dec (w : world) (o : opt) (stdin : str) : (exists r, run_request w o stdin r) \/ unread w o stdin.
Proof.
  assert (D : (exists i, run_input w o stdin i) \/ forall i, ~ run_input w o stdin i).
  { unfold run_input. destruct (op_in_file o) as [f|]; [|left; eauto]. destruct (w_read w f); [left; eauto|right; discriminate]. }
  destruct D as [[i I]|N]; [|right; intros r (i & I & _); exact (N i I)].
  destruct (from_reader (w_trace w) (w_url w) i) as [[r|]|] eqn:F.
  1:{ left. exists r, i. split; [exact I|now apply read_accepts]. }
  all: right; intros r (j & J & G); apply read_accepts in G; assert (j = i) by (unfold run_input in *; destruct (op_in_file o); congruence); congruence.
Qed.

(** ** canonicalize *)
Lemma canon_given (o : opt) (cc : canon_config) : canon_opts o (Ok cc) -> Forall component_rep (cc_components cc).
Proof.
  intro H. inversion H as [a oc A I G E| | |]; subst. cbn [cc_components]. destruct oc as [cs|]; cbn [or_else]; [|constructor].
  inversion G as [| |h ws cs' H1 H2 H3]; [constructor|]. subst. clear - H3.
  induction H3 as [|x c xs cs X _ IH]; constructor; [|exact IH]. now apply component_text_iff, CompFacts.comp_from_str_ok in X.
Qed.
Lemma sign_given (w : world) (o : opt) (c : signing_config) : sign_opts w o (Ok c) -> Forall component_rep (sc_components c)
  /\ sc_add_date c = false /\ sc_add_host c = false /\ sc_compute_digest c = false /\ sc_skip_missing c = false /\ sc_digest c = sha256_digest.
Proof.
  intro H. inversion H as [a t pem key oc A T K P G E| | | | | | |]; subst. cbn. repeat split. destruct oc as [cs|]; cbn [or_else]; [|constructor].
  inversion G as [| |h ws cs' H1 H2 H3]; [constructor|]. subst. clear - H3.
  induction H3 as [|x c xs cs X _ IH]; constructor; [|exact IH]. now apply component_text_iff, CompFacts.comp_from_str_ok in X.
Qed.
Lemma mr_derive_rep (r : mock) (q : component) : component_rep q -> mr_derive r q <> Panic.
Proof. intro H. apply component_rep_proper in H. now apply (proper_total mr_client mr_client_laws r q). Qed.
Lemma canon_total (r : mock) (cc : canon_config) : Forall component_rep (cc_components cc) ->
  exists os, Forall2 (fun c o => mr_derive r c = Done o) (cc_components cc) os.
Proof.
  induction 1 as [|q cs Q _ (os & IH)]; [exists []; constructor|]. pose proof (mr_derive_rep r q Q) as N.
  destruct (mr_derive r q) as [v|] eqn:E; [|congruence]. exists (v :: os). now constructor.
Qed.
Lemma canon_run_sound (w : world) (o : opt) (stdin : str) (se : sign_env) (ve : verify_env) : op_mode o = MCanonicalize ->
  canon_run w o stdin (run w o stdin se ve).
Proof.
  intro M. destruct (run_request_dec w o stdin) as [[r R]|N]; [|rewrite unread_run by exact N; now constructor].
  rewrite (run_request_run _ _ _ _ se ve R). unfold run_on. rewrite M. destruct (canonicalize_config o) as [cc|e] eqn:C; apply canon_opts_iff in C.
  2:{ now apply (canon_refused w o stdin r). }
  pose proof (canon_given o cc C) as Rp. destruct (canon_total r cc Rp) as (os & Os).
  destruct (canonicalize mr_rl r cc) as [[[base si]|e]|] eqn:K; cbn [obind].
  - apply canonicalize_ok_spec in K. now apply (canon_printed w o stdin r cc).
  - destruct (canonicalize_missing_iff mr_rl r cc os Os) as [Mi E]. destruct (E e K) as [l ->]. apply Mi in K. destruct K as [Nl ->].
    assert (X : exists q, In q (cc_components cc) /\ mr_derive r q = Done None).
    { clear - Nl Os. induction Os as [|q v cs os Q _ IH]; [now contradiction Nl|]. unfold lacking in Nl. cbn [combine filter snd] in Nl.
      destruct v as [v|]; cbn [is_none] in Nl; [|exists q; split; [now left|exact Q]]. destruct (IH Nl) as (q' & I & D). exists q'. split; [now right|exact D]. }
    destruct X as (q & I & D). now apply (canon_missing w o stdin r cc q).
  - apply (canon_unprintable w o stdin r cc); [exact R|exact C| |].
    + intros q I D. apply canonicalize_panic in K. destruct K as [(c & Ic & P)|((vs & Vs) & _)].
      * rewrite Forall_forall in Rp. exact (mr_derive_rep r c (Rp c Ic) P).
      * clear - Vs I D. cbn [rl_derive mr_rl] in Vs. induction Vs as [|x v xs vs X _ IH]; [destruct I|]. destruct I as [->|I]; [congruence|now apply IH].
    + intros base B. assert (E : canonicalize mr_rl r cc = Done (Ok (base, SignatureInput (cc_get_label cc) (InnerList (map component_item (cc_components cc)) (cc_params cc)))))
        by (now apply canonicalize_ok_spec). congruence.
Qed.
Lemma has_values {A B} (f : A -> outcome (option B)) (cs : list A) (vs : list B) (q : A) : Forall2 (fun c v => f c = Done (Some v)) cs vs ->
  In q cs -> f q = Done None -> False.
Proof. induction 1 as [|x v xs vs X _ IH]; intros I D; [destruct I|]. destruct I as [->|I]; [congruence|now apply IH]. Qed.
Lemma base_missing (f : component -> outcome (option str)) (cs : list component) (p : params) (base : str) (q : component) :
  signature_base f cs p base -> In q cs -> f q = Done None -> False.
Proof. intros (ids & vals & sp & _ & F & _). exact (has_values f cs vals q F). Qed.
Lemma run_request_fun (w : world) (o : opt) (stdin : str) (r r' : mock) : run_request w o stdin r -> run_request w o stdin r' -> r = r'.
Proof.
  intros (i & I & F) (j & J & G). apply read_accepts in F, G. assert (j = i) by (unfold run_input in *; destruct (op_in_file o); congruence). congruence.
Qed.
Ltac same_run := repeat match goal with
  | R : run_request ?w ?o ?s ?r, N : unread ?w ?o ?s |- _ => exfalso; exact (N r R)
  | R : run_request ?w ?o ?s ?r, R' : run_request ?w ?o ?s ?r' |- _ => pose proof (run_request_fun _ _ _ _ _ R R'); subst r'; clear R'
  end.
Lemma canon_run_fun (w : world) (o : opt) (stdin : str) (x y : outcome (result str verror)) : canon_run w o stdin x -> canon_run w o stdin y -> x = y.
Proof.
  assert (F : forall a b, canon_opts o a -> canon_opts o b -> a = b) by (intros a b A B; apply canon_opts_iff in A, B; congruence).
  intros A B. destruct A, B; try reflexivity; same_run;
    match goal with X : canon_opts o ?a, Y : canon_opts o ?b |- _ => pose proof (F _ _ X Y) as Z; clear Y; try discriminate Z; injection Z as <- end;
    try reflexivity; try (exfalso; solve [eapply base_missing; eassumption|match goal with H : forall q, _ -> _ <> _ |- _ => eapply H; eassumption end
      |match goal with H : forall base, ~ _ |- _ => eapply H; eassumption end]).
  f_equal. f_equal. eapply signature_base_fun; eassumption.
Qed.

(** ** sign *)
Lemma plain_completed (r : mock) (c : signing_config) (date : str) (q : component) : sc_add_date c = false -> sc_add_host c = false -> sc_compute_digest c = false ->
  completed mr_client r c date q = mr_derive r q.
Proof.
  intros D H G. unfold completed, added. rewrite D, H, G. cbn [cr_rl mr_client rl_derive mr_rl]. destruct q as [d|h]; [reflexivity|].
  destruct (mr_derive r (CHeader h)) as [[v|]|]; try reflexivity.
  destruct (list_eq_dec ascii_dec h $"date"); [reflexivity|]. destruct (list_eq_dec ascii_dec h $"host"); [reflexivity|].
  now destruct (list_eq_dec ascii_dec h $"digest").
Qed.
Lemma sign_run_sound (w : world) (o : opt) (stdin : str) (se : sign_env) (ve : verify_env) : sys_clock_ok (se_sys se) -> op_mode o = MSign ->
  sign_run w o stdin (seconds (se_sys se)) (se_rnd se) (run w o stdin se ve).
Proof.
  intros S M. destruct (run_request_dec w o stdin) as [[r R]|N]; [|rewrite unread_run by exact N; now constructor].
  rewrite (run_request_run _ _ _ _ se ve R). unfold run_on. rewrite M. destruct (signing_config_of w o) as [c|e] eqn:C; apply sign_opts_iff in C.
  2:{ now apply (sign_refused w o stdin _ _ r). }
  destruct (sign_given w o c C) as (Rp & D & H & G & K & Dg).
  assert (A : add_auto_headers mr_client r c se = Done (r, sc_components c)).
  { unfold add_auto_headers, add_date, add_host, add_digest. rewrite D, H, G. cbn [obind]. rewrite K. reflexivity. }
  assert (Pr : Forall proper_component (sc_components c)).
  { eapply Forall_impl; [|exact Rp]. intros q Q. now apply component_rep_proper. }
  destruct (sign mr_client r c se) as [[r' res]|] eqn:E; cbn [obind].
  - apply sign_result_of in E; [|exact S]. destruct E as (r1 & cs & A' & E). rewrite A in A'. assert (r1 = r /\ cs = sc_components c) as [-> ->] by (split; congruence).
    inversion E as [L|L L'|q L L' Iq Dq _|base sp L L' B I Lg|base sp L L' B I Lg]; subst r' res; clear E.
    + apply (sign_untimely w o stdin _ _ r c R C). now left.
    + apply (sign_untimely w o stdin _ _ r c R C). now right.
    + now apply (sign_missing_value w o stdin _ _ r c q R C (conj L L')).
    + now apply (sign_illegal w o stdin _ _ r c base R C (conj L L')).
    + match goal with |- context [write ?x] => destruct (write x) as [t|] eqn:W end.
      * apply write_iff in W. destruct W as [Sh ->]. exact (sign_printed w o stdin _ _ r c base sp R C (conj L L') B Lg I Sh).
      * apply (sign_not_printed w o stdin _ _ r c base sp R C (conj L L') B Lg I). intro Sh.
        assert (F : write (signed_request r c (se_rnd se) sp base) = Some (request_text (signed_request r c (se_rnd se) sp base))) by (now apply write_iff).
        unfold signed_request in F. cbn [cr_set_header mr_client] in W. congruence.
  - assert (Sf : auto_safe mr_client r c se).
    { split; [exact S|]. split; [congruence|]. split; [discriminate|]. intros d Ed. cbn in Ed.
      destruct (mr_body r) as [b|]; [|discriminate]. cbn in Ed. injection Ed as <-. apply digest_plain. now left. }
    apply (sign_panic_iff mr_client mr_client_laws r c se Sf Pr) in E. destruct E as (N1 & N2 & Mi & U).
    apply (sign_unprintable w o stdin _ _ r c R C (conj N1 N2)).
    + destruct Mi as [Mi|Mi]; [congruence|]. intros q I. pose proof (Mi q I) as Av. rewrite Forall_forall in Pr.
      apply (completed_available mr_client mr_client_laws r c [] q (Pr q I)) in Av. now rewrite plain_completed in Av.
    + intros base B. assert (T : to_sign mr_client r c [] (seconds (se_sys se)) (sc_components c) base).
      { split; [unfold covered; now rewrite K|]. apply (signature_base_ext (mr_derive r)); [|exact B]. intros q _. symmetry. now apply plain_completed. }
      apply base_printable in T. exact (T U).
Qed.
Lemma sign_run_fun (w : world) (o : opt) (stdin : str) (now : Z) (rnd : N) (x y : outcome (result str verror)) :
  sign_run w o stdin now rnd x -> sign_run w o stdin now rnd y -> x = y.
Proof.
  assert (F : forall a b, sign_opts w o a -> sign_opts w o b -> a = b) by (intros a b A B; apply sign_opts_iff in A, B; congruence).
  intros A B. destruct A, B; try reflexivity; same_run;
    match goal with X : sign_opts w o ?a, Y : sign_opts w o ?b |- _ => pose proof (F _ _ X Y) as Z; clear Y; try discriminate Z; injection Z as <- end;
    try reflexivity;
    repeat match goal with
    | X : in_time _ _ |- _ => destruct X
    | X : signature_base _ _ _ ?b, Y : signature_base _ _ _ ?b' |- _ => assert_fails (constr_eq b b'); pose proof (signature_base_fun _ _ _ _ _ X Y); subst b'; clear Y
    | X : inner_text _ _ ?b, Y : inner_text _ _ ?b' |- _ => assert_fails (constr_eq b b'); pose proof (inner_text_fun _ _ _ _ X Y); subst b'; clear Y
    end; try reflexivity; exfalso;
    solve [tauto|eapply base_missing; eassumption|match goal with H : forall q, _ -> _ <> _ |- _ => eapply H; eassumption end
      |match goal with H : forall base, ~ _ |- _ => eapply H; eassumption end].
Qed.

(** ** verify *)
Lemma accepts_checks (r : mock) (c : verifying_config) (keys : key_provider) (ve : verify_env) (kid : str) : verifies_with c keys ->
  (accepts mr_server r c ve kid <-> accepts mr_server r (checks keys) ve kid).
Proof.
  intros (K & D & Rq & Rd & Vd & Vt). unfold accepts, key_accepts, date_ok, digest_ok. cbn [checks vc_keys vc_digests vc_required vc_require_digest vc_validate_digest vc_validate_date].
  rewrite K, D, Rq, Rd, Vd, Vt. split; intros (cc & sig & A & B & C & E & F & G); exists cc, sig; repeat (split; [assumption|]); (split; [discriminate|exact G]).
Qed.
Lemma verify_run_sound (w : world) (o : opt) (stdin : str) (se : sign_env) (ve : verify_env) : sys_clock_ok (ve_sys ve) -> op_mode o = MVerify ->
  verify_run w o stdin ve (run w o stdin se ve).
Proof.
  intros S M. destruct (run_request_dec w o stdin) as [[r R]|N]; [|rewrite unread_run by exact N; now constructor].
  rewrite (run_request_run _ _ _ _ se ve R). unfold run_on. rewrite M. destruct (verify_opts_sound w o) as (y & V & Ag). unfold opts_agree in Ag.
  destruct (verification_config_of w o) as [c|e], y as [keys|e']; try contradiction; [|subst e'; now apply (verify_refused w o stdin ve r)].
  assert (Cl : sys_clock_ok (ve_sys ve) /\ (vc_validate_date c = true -> utc_clock_ok (ve_utc ve))).
  { split; [exact S|]. destruct Ag as (_ & _ & _ & _ & _ & ->). discriminate. }
  assert (Rq : forall d, In (CDerived d) (vc_required c) -> exists t, item_text (dc_item d) t).
  { destruct Ag as (_ & _ & -> & _). intros d []. }
  destruct (verify_function mr_server r c ve Cl (mr_total r) Rq) as [P _].
  destruct (verify mr_server r c ve) as [[[rem kid]|e]|] eqn:E; cbn [obind].
  - apply (verify_accepted w o stdin ve r keys kid R V). apply (accepts_checks r c keys ve kid Ag). apply verify_iff; [exact (proj1 Cl)|exact (proj2 Cl)|]. now exists rem.
  - apply (verify_rejected w o stdin ve r keys R V).
    + apply (verify_outcome_iff mr_server r c ve Cl (mr_total r) Rq) in E. exact (proj1 E).
    + intros kid A. apply (accepts_checks r c keys ve kid Ag) in A. apply verify_iff in A; [|exact (proj1 Cl)|exact (proj2 Cl)]. destruct A as (rem & A). congruence.
  - apply (verify_unreadable w o stdin ve r keys R V). now apply P.
Qed.
Lemma verify_run_fun (w : world) (o : opt) (stdin : str) (ve : verify_env) (x y : outcome (result str verror)) : sys_clock_ok (ve_sys ve) ->
  verify_run w o stdin ve x -> verify_run w o stdin ve y -> x = y.
Proof.
  intro S. assert (N : forall r keys kid, accepts mr_server r (checks keys) ve kid -> input_readable mr_server r).
  { intros r keys kid A. assert (Cl : clocks_ok (checks keys) ve) by (split; [exact S|discriminate]).
    apply (verify_iff mr_server r (checks keys) ve (proj1 Cl) (proj2 Cl)) in A. destruct A as (rem & A).
    apply (verify_outcome_iff mr_server r (checks keys) ve Cl (mr_total r) ltac:(intros d [])) in A. exact (proj1 A). }
  intros A B. destruct A, B; try reflexivity; same_run;
    match goal with X : verify_opts w o ?a, Y : verify_opts w o ?b |- _ => pose proof (verify_opts_fun w o _ _ X Y) as Z; clear Y; try discriminate Z; injection Z as <- end;
    try reflexivity; exfalso;
    solve [contradiction|match goal with H : forall k, ~ accepts _ _ _ _ _ |- _ => eapply H; eassumption end
      |match goal with A : accepts _ _ _ _ _, H : ~ input_readable _ _ |- _ => apply H; eapply N; exact A end].
Qed.

(** ** C71 *)
Lemma run_canonicalize (w : world) (o : opt) (stdin : str) (se : sign_env) (ve : verify_env) (res : outcome (result str verror)) :
  op_mode o = MCanonicalize -> (run w o stdin se ve = res <-> canon_run w o stdin res).
Proof. intro M. pose proof (canon_run_sound w o stdin se ve M) as H. split; [now intros <-|]. intro K. now apply (canon_run_fun w o stdin). Qed.
Lemma run_sign (w : world) (o : opt) (stdin : str) (se : sign_env) (ve : verify_env) (res : outcome (result str verror)) :
  sys_clock_ok (se_sys se) -> op_mode o = MSign ->
  (run w o stdin se ve = res <-> sign_run w o stdin (seconds (se_sys se)) (se_rnd se) res).
Proof. intros S M. pose proof (sign_run_sound w o stdin se ve S M) as H. split; [now intros <-|]. intro K. now apply (sign_run_fun _ _ _ _ _ _ _ H). Qed.
Lemma run_verify (w : world) (o : opt) (stdin : str) (se : sign_env) (ve : verify_env) (res : outcome (result str verror)) :
  sys_clock_ok (ve_sys ve) -> op_mode o = MVerify -> (run w o stdin se ve = res <-> verify_run w o stdin ve res).
Proof. intros S M. pose proof (verify_run_sound w o stdin se ve S M) as H. split; [now intros <-|]. intro K. now apply (verify_run_fun _ _ _ _ _ _ S H). Qed.

(** ** C72 *)
Lemma cut_iff (r : mock) (out : str) : write_out r = (out, false) <-> cut_text r out.
Proof.
  assert (V : forall v, hvalue_visible v = true <-> plain v) by (intro v; symmetry; apply value_iff).
  unfold write_out, cut_text. destruct (write_headers (mr_headers r)) as [hs ok] eqn:W. split.
  - intro H. assert (ok = false) by congruence. subst ok. apply write_headers_cut in W. destruct W as (before & n & v & after & E & F & X & ->).
    exists before, n, v, after. split; [exact E|]. split; [eapply Forall_impl; [|exact F]; intros h; apply V|]. split; [rewrite <- V; congruence|].
    injection H as <-. now rewrite app_nil_r.
  - intros (before & n & v & after & E & F & X & ->).
    assert (Y : (hs, ok) = (List.concat (map header_line before), false)).
    { rewrite <- W. apply write_headers_cut. exists before, n, v, after. split; [exact E|]. split; [eapply Forall_impl; [|exact F]; intros h; apply V|].
      split; [|reflexivity]. rewrite <- V in X. destruct (hvalue_visible v); [now destruct X|reflexivity]. }
    injection Y as -> ->. now rewrite app_nil_r.
Qed.
Lemma cut_some (r : mock) (out : str) : cut_text r out -> out <> [].
Proof. intros (before & n & v & after & _ & _ & _ & ->). destruct (mr_method r); discriminate. Qed.
Lemma failing_output (w : world) (o : opt) (stdin : str) (se : sign_env) (ve : verify_env) (out : str) (e : verror) :
  sys_clock_ok (se_sys se) ->
  (main w o stdin se ve = Done (out, Some e) /\ out <> [] <->
   op_mode o = MSign /\ e = VIo /\ exists r c base sp, run_request w o stdin r /\ sign_opts w o (Ok c) /\ in_time c (seconds (se_sys se))
     /\ signature_base (mr_derive r) (sc_components c) (stamp c (seconds (se_sys se))) base
     /\ legal_value (signature_text c (se_rnd se) base)
     /\ inner_text (map component_item (sc_components c)) (stamp c (seconds (se_sys se))) sp
     /\ cut_text (signed_request r c (se_rnd se) sp base) out).
Proof.
  intro S. split.
  - intros [M N]. unfold main in M.
    destruct (match op_in_file o with Some f => unwrap (w_read w f) | None => Done stdin end) as [input|] eqn:I; cbn [obind] in M; [|discriminate].
    destruct (from_reader (w_trace w) (w_url w) input) as [[r|]|] eqn:F; cbn [obind unwrap] in M; try discriminate.
    assert (R : run_request w o stdin r).
    { exists input. split; [|now apply read_accepts]. unfold run_input. destruct (op_in_file o) as [f|]; [|congruence].
      destruct (w_read w f) as [x|]; cbn [unwrap] in I; congruence. }
    destruct (op_mode o) eqn:Md.
    + exfalso. destruct (canonicalize_config o) as [cc|e']; [|congruence]. destruct (canonicalize mr_rl r cc) as [[[b si]|e']|]; cbn [obind] in M; congruence.
    + destruct (signing_config_of w o) as [c|e'] eqn:C; [|exfalso; congruence]. apply sign_opts_iff in C.
      destruct (sign_given w o c C) as (Rp & D & H & G & K & Dg).
      assert (A : add_auto_headers mr_client r c se = Done (r, sc_components c)).
      { unfold add_auto_headers, add_date, add_host, add_digest. rewrite D, H, G. cbn [obind]. rewrite K. reflexivity. }
      destruct (sign mr_client r c se) as [[r' res]|] eqn:E; cbn [obind] in M; [|discriminate].
      apply sign_result_of in E; [|exact S]. destruct E as (r1 & cs & A' & E). rewrite A in A'. assert (r1 = r /\ cs = sc_components c) as [-> ->] by (split; congruence).
      inversion E as [L|L L'|q L L' Iq Dq _|base sp L L' B J Lg|base sp L L' B J Lg]; subst r' res; clear E; try (exfalso; congruence).
      match type of M with context [write_out ?x] => change x with (signed_request r c (se_rnd se) sp base) in M end.
      destruct (write_out (signed_request r c (se_rnd se) sp base)) as [t [|]] eqn:W; [discriminate M|].
      assert (t = out /\ e = VIo) as [-> ->] by (injection M as X Y; split; congruence).
      split; [reflexivity|]. split; [reflexivity|]. exists r, c, base, sp. repeat (split; [assumption|]). split; [now split|]. repeat (split; [assumption|]). now apply cut_iff.
    + exfalso. destruct (verification_config_of w o) as [c|e']; [|congruence]. destruct (verify mr_server r c ve) as [[x|x]|]; cbn [obind] in M; congruence.
  - intros (Md & -> & r & c & base & sp & R & C & T & B & Lg & J & Cut). split; [|now apply cut_some in Cut].
    assert (Q : run w o stdin se ve = Done (Err VIo)).
    { apply run_sign; [exact S|exact Md|]. apply (sign_not_printed w o stdin _ _ r c base sp R C T B Lg J).
      destruct Cut as (before & n & v & after & E & F & X & _). unfold SpecText.shown. rewrite E. rewrite Forall_app. intros [_ Y]. inversion Y. now apply X. }
    pose proof R as R0. destruct R0 as (input & I & F). apply read_accepts in F.
    assert (E : match op_in_file o with Some f => unwrap (w_read w f) | None => Done stdin end = Done input).
    { unfold run_input in I. destruct (op_in_file o) as [f|]; [rewrite I; reflexivity|congruence]. }
    unfold main. rewrite E. cbn [obind]. rewrite F. cbn [obind unwrap]. rewrite Md. apply sign_opts_iff in C. rewrite C.
    assert (Sn : sign mr_client r c se = Done (signed_request r c (se_rnd se) sp base, Ok tt)).
    { apply sign_opts_iff in C. destruct (sign_given w o c C) as (Rp & D & H & G & K & Dg).
      assert (A : add_auto_headers mr_client r c se = Done (r, sc_components c)).
      { unfold add_auto_headers, add_date, add_host, add_digest. rewrite D, H, G. cbn [obind]. rewrite K. reflexivity. }
      revert Q. rewrite (run_request_run _ _ _ _ se ve R). unfold run_on. rewrite Md. apply sign_opts_iff in C. rewrite C.
      destruct (sign mr_client r c se) as [[r' res]|] eqn:E'; cbn [obind]; [|discriminate]. intros Q.
      apply sign_result_of in E'; [|exact S]. destruct E' as (r1 & cs & A' & E'). rewrite A in A'. assert (r1 = r /\ cs = sc_components c) as [-> ->] by (split; congruence).
      inversion E' as [L|L L'|q L L' Iq Dq _|base' sp' L L' B' J' Lg'|base' sp' L L' B' J' Lg']; subst r' res; clear E'; try discriminate Q.
      pose proof (signature_base_fun _ _ _ _ _ B B'). subst base'. pose proof (inner_text_fun _ _ _ _ J J'). subst sp'. reflexivity. }
    rewrite Sn. cbn [obind]. apply cut_iff in Cut. rewrite Cut. reflexivity.
Qed.
Lemma successful_output (w : world) (o : opt) (stdin : str) (se : sign_env) (ve : verify_env) (out : str) :
  main w o stdin se ve = Done (out, None) <-> run w o stdin se ve = Done (Ok out).
Proof. unfold run. destruct (main w o stdin se ve) as [[t [e|]]|]; cbn [obind]; split; congruence. Qed.
