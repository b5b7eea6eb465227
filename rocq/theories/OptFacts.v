(** Proofs about the validator's options (for PropOpt.v). *)
From Verif Require Export SpecOpt MockFacts VerifyFacts.

Lemma known_iff (a : str) : known_alg a = true <-> In a known_names.
Proof.
  unfold known_alg. rewrite existsb_exists. split.
  - intros (x & I & E). apply str_eqb_eq in E. subst x. revert I. unfold canon_algs, known_names. cbn [In]. tauto.
  - intro I. exists a. split; [|now apply str_eqb_eq]. revert I. unfold canon_algs, known_names. cbn [In]. tauto.
Qed.
Lemma loads_iff (a : str) (t : key_type) : loads a t <-> rsa_type a = Some t.
Proof.
  unfold rsa_type. split; [now destruct 1|].
  destruct (str_eqb a _) eqn:E; [apply str_eqb_eq in E; subst; intro H; injection H as <-; constructor|clear E].
  destruct (str_eqb a _) eqn:E; [apply str_eqb_eq in E; subst; intro H; injection H as <-; constructor|clear E].
  destruct (str_eqb a _) eqn:E; [apply str_eqb_eq in E; subst; intro H; injection H as <-; constructor|clear E].
  destruct (str_eqb a _) eqn:E; [apply str_eqb_eq in E; subst; intro H; injection H as <-; constructor|discriminate].
Qed.
Lemma loads_known (a : str) (t : key_type) : loads a t -> In a known_names.
Proof. destruct 1; cbn; tauto. Qed.

Lemma component_text_iff (w : str) (c : component) : component_text w c <-> comp_from_str w = Ok c.
Proof.
  destruct c as [d|h].
  - rewrite comp_from_str_derived. unfold component_text. split.
    + intros [(h & _ & E)|(i & P & R & E)]; [discriminate|]. injection E as ->. auto.
    + intros [P R]. right. exists (dc_item d). now destruct d.
  - split.
    + intros [(h' & S & E)|(i & _ & _ & E)]; [|discriminate]. injection E as ->. now apply spelled_component.
    + intro H. left. exists h. split; [|reflexivity]. unfold comp_from_str in H. destruct (_ || _) in H.
      * destruct (dc_from_str w); discriminate.
      * destruct (hname_parse w) eqn:E; [|discriminate]. injection H as ->. now apply spelled_iff.
Qed.
Lemma not_component_iff (w : str) : (forall c, ~ component_text w c) <-> exists e, comp_from_str w = Err e.
Proof.
  split.
  - intro N. destruct (comp_from_str w) as [c|e] eqn:E; [|eauto]. apply component_text_iff in E. now apply N in E.
  - intros (e & E) c C. apply component_text_iff in C. congruence.
Qed.
Lemma parse_all_some (ws : list str) (cs : list component) : parse_all ws = Some cs <-> Forall2 component_text ws cs.
Proof.
  revert cs. induction ws as [|w ws IH]; intro cs; cbn [parse_all].
  - split; [intro H; injection H as <-; constructor|]. intro H. now inversion H.
  - split.
    + destruct (comp_from_str w) as [c|] eqn:E; [|discriminate]. destruct (parse_all ws) as [l|]; [|discriminate]. intro H. injection H as <-.
      constructor; [now apply component_text_iff|now apply IH].
    + intro H. inversion H as [|? c ? l E F]; subst. apply component_text_iff in E. rewrite E. apply IH in F. now rewrite F.
Qed.
Lemma parse_all_none (ws : list str) : parse_all ws = None <-> exists w e, In w ws /\ comp_from_str w = Err e.
Proof.
  induction ws as [|w ws IH]; cbn [parse_all].
  - split; [discriminate|]. now intros (w & e & [] & _).
  - destruct (comp_from_str w) as [c|e] eqn:E.
    + destruct (parse_all ws) as [l|].
      * split; [discriminate|]. intros (x & e & [->|I] & X); [congruence|]. assert (Y : Some l = None) by (apply IH; eauto). discriminate.
      * split; [|reflexivity]. intros _. destruct (proj1 IH eq_refl) as (x & e & I & X). exists x, e. split; [now right|exact X].
    + split; [|reflexivity]. intros _. exists w, e. split; [now left|exact E].
Qed.
Lemma given_iff (o : opt) (oc : option (list component)) : parse_headers o = Ok oc <-> given o oc.
Proof.
  unfold parse_headers. split.
  - destruct (op_headers o) as [[h|]|] eqn:H.
    + destruct (parse_all (split_ascii_whitespace h)) as [cs|] eqn:P; [|discriminate]. intro E. injection E as <-.
      apply (given_words o h (split_ascii_whitespace h)); [exact H|now apply words_iff|now apply parse_all_some].
    + intro E. injection E as <-. now apply given_empty.
    + intro E. injection E as <-. now apply given_not.
  - intros [H|H|h ws cs H W F]; rewrite H; try reflexivity. apply words_iff in W. subst ws. apply parse_all_some in F. now rewrite F.
Qed.
Lemma bad_headers_iff (o : opt) : (exists e, parse_headers o = Err e) <-> bad_headers o.
Proof.
  unfold parse_headers, bad_headers. split.
  - destruct (op_headers o) as [[h|]|]; [|intros [e E]; discriminate..].
    destruct (parse_all (split_ascii_whitespace h)) as [cs|] eqn:P; [intros [e E]; discriminate|]. intros _.
    apply parse_all_none in P. destruct P as (w & e & I & E). exists h, (split_ascii_whitespace h), w. split; [reflexivity|]. split; [now apply words_iff|]. split; [exact I|]. apply not_component_iff. eauto.
  - intros (h & ws & w & H & W & I & E). apply not_component_iff in E. destruct E as [e E]. rewrite H. apply words_iff in W. subst ws.
    assert (P : parse_all (split_ascii_whitespace h) = None) by (apply parse_all_none; eauto). rewrite P. eauto.
Qed.
Lemma parse_headers_err (o : opt) (e : verror) : parse_headers o = Err e -> e = VParse.
Proof. unfold parse_headers. destruct (op_headers o) as [[h|]|]; try discriminate. destruct (parse_all _); [discriminate|]. congruence. Qed.

(** ** Keys *)
Lemma read_key_some (w : world) (f : option str) (pem : str) : read_key w f = Ok (Some pem) <-> key_file w f pem.
Proof.
  unfold read_key, key_file. destruct f as [n|]; [|split; [discriminate|intros (n & H & _); discriminate]].
  destruct (w_read w n) as [d|] eqn:R.
  - split; [intro H; injection H as <-; eauto|]. intros (m & M & D). congruence.
  - split; [discriminate|]. intros (m & M & D). congruence.
Qed.
Lemma read_key_none (w : world) (f : option str) : read_key w f = Ok None <-> f = None.
Proof. unfold read_key. destruct f as [n|]; [|tauto]. destruct (w_read w n); split; discriminate. Qed.
Lemma read_key_err (w : world) (f : option str) : read_key w f = Err VIo <-> unreadable w f.
Proof.
  unfold read_key, unreadable. destruct f as [n|]; [|split; [discriminate|intros (n & H & _); discriminate]].
  destruct (w_read w n) as [d|] eqn:R.
  - split; [discriminate|]. intros (m & M & D). congruence.
  - split; [eauto|reflexivity].
Qed.
Lemma read_key_ok (w : world) (f : option str) (kd : option str) : read_key w f = Ok kd -> ~ unreadable w f.
Proof. intros H U. apply read_key_err in U. congruence. Qed.
Lemma read_key_cases (w : world) (f : option str) (e : verror) : read_key w f = Err e -> e = VIo.
Proof. unfold read_key. destruct f as [n|]; [|discriminate]. destruct (w_read w n); [discriminate|congruence]. Qed.

Lemma sign_opts_sound (w : world) (o : opt) : sign_opts w o (signing_config_of w o).
Proof.
  unfold signing_config_of. destruct (read_key w (op_private_key o)) as [kd|e] eqn:K.
  2:{ pose proof (read_key_cases _ _ _ K). subst e. apply sign_io. now apply read_key_err. }
  cbn [rbind]. unfold check_alg. destruct (op_algorithm o) as [a|] eqn:A.
  2:{ cbn [rbind]. apply sign_no_alg; [now apply (read_key_ok _ _ kd)|exact A]. }
  destruct (known_alg a) eqn:N; cbn [rbind].
  2:{ apply (sign_unknown w o a); [now apply (read_key_ok _ _ kd)|exact A|]. intro I. apply known_iff in I. congruence. }
  apply known_iff in N. destruct kd as [pem|]; [|cbn [rbind]; apply (sign_no_key w o a); [now apply read_key_none in K|exact A|exact N]].
  apply read_key_some in K. destruct (rsa_type a) as [t|] eqn:T; cbn [rbind].
  2:{ apply (sign_unsupported w o a pem); try assumption. intros t L. apply loads_iff in L. congruence. }
  apply loads_iff in T. destruct (sign_new_pkcs8_pem (w_crypto w) (w_ring w) t pem) as [key|] eqn:P; cbn [rbind]; [|now apply (sign_bad_key w o a t pem)].
  destruct (parse_headers o) as [oc|e] eqn:H; cbn [rbind].
  - apply given_iff in H. pose proof (sign_ok w o a t pem key oc A T K P H) as S. revert S.
    destruct oc as [cs|], (op_created o) as [cr|], (op_expires o) as [ex|]; exact (fun x => x).
  - pose proof (parse_headers_err _ _ H). subst e. apply (sign_bad_headers w o a t pem key); try assumption. apply bad_headers_iff. eauto.
Qed.
Lemma loads_fun (a : str) (t u : key_type) : loads a t -> loads a u -> t = u.
Proof. rewrite !loads_iff. congruence. Qed.
Lemma given_fun (o : opt) (x y : option (list component)) : given o x -> given o y -> x = y.
Proof. rewrite <- !given_iff. congruence. Qed.
Lemma given_not_bad (o : opt) (x : option (list component)) : given o x -> ~ bad_headers o.
Proof. rewrite <- given_iff, <- bad_headers_iff. intros H [e E]. congruence. Qed.
Lemma key_file_fun (w : world) (f : option str) (x y : str) : key_file w f x -> key_file w f y -> x = y.
Proof. rewrite <- !read_key_some. congruence. Qed.
Lemma key_file_readable (w : world) (f : option str) (x : str) : key_file w f x -> ~ unreadable w f.
Proof. rewrite <- read_key_some, <- read_key_err. congruence. Qed.
Lemma key_file_given (w : world) (f : option str) (x : str) : key_file w f x -> f <> None.
Proof. intros (n & -> & _). discriminate. Qed.
Ltac opts := repeat match goal with
  | H : op_algorithm ?o = Some ?a, H' : op_algorithm ?o = Some ?b |- _ => assert (a = b) by congruence; subst b; clear H'
  | H : op_algorithm ?o = Some ?a, H' : op_algorithm ?o = None |- _ => congruence
  | H : loads ?a ?t, H' : loads ?a ?u |- _ => pose proof (loads_fun _ _ _ H H'); subst u; clear H'
  | H : given ?o ?t, H' : given ?o ?u |- _ => pose proof (given_fun _ _ _ H H'); subst u; clear H'
  | H : key_file ?w ?f ?x, H' : key_file ?w ?f ?y |- _ => pose proof (key_file_fun _ _ _ _ H H'); subst y; clear H'
  | H : sign_new_pkcs8_pem ?cy ?rk ?t ?p = Some ?a, H' : sign_new_pkcs8_pem ?cy ?rk ?t ?p = Some ?b |- _ => assert (a = b) by congruence; subst b; clear H'
  end.
Lemma sign_opts_fun (w : world) (o : opt) (x y : result signing_config verror) : sign_opts w o x -> sign_opts w o y -> x = y.
Proof.
  intros H H'. destruct H; destruct H'; opts; try reflexivity; exfalso;
    repeat match goal with
    | K : key_file _ _ _ |- _ => pose proof (key_file_readable _ _ _ K); pose proof (key_file_given _ _ _ K); revert K
    end; intros;
    repeat match goal with
    | K : loads _ _ |- _ => pose proof (loads_known _ _ K); revert K
    | K : given _ _ |- _ => pose proof (given_not_bad _ _ K); revert K
    end; intros;
    try contradiction; try congruence;
    try match goal with U : unreadable _ ?f, E : ?f = None |- _ => destruct U as (? & U & _); congruence end;
    match goal with N : forall t, ~ loads ?a t, L : loads ?a _ |- _ => exact (N _ L) end.
Qed.
Lemma sign_opts_iff (w : world) (o : opt) (r : result signing_config verror) : signing_config_of w o = r <-> sign_opts w o r.
Proof. split; [intros <-; apply sign_opts_sound|]. intro H. exact (sign_opts_fun w o _ _ (sign_opts_sound w o) H). Qed.

(** ** verify *)
Lemma public_key_val (w : world) (t : key_type) (pem : str) :
  public_key w t pem (match t with
    | RsaSha256 => match verify_new_spki_pem (w_crypto w) t pem with Some k => Some k | None => verify_new_pkcs1_pem (w_crypto w) t pem end
    | _ => verify_new_pkcs1_pem (w_crypto w) t pem
    end).
Proof.
  destruct t; try (apply public_pkcs1; discriminate). destruct (verify_new_spki_pem (w_crypto w) RsaSha256 pem) as [k|] eqn:E; [now apply public_spki|now apply public_fallback].
Qed.
Lemma public_key_fun (w : world) (t : key_type) (pem : str) (x y : option http_verifier) : public_key w t pem x -> public_key w t pem y -> x = y.
Proof. intros H H'. destruct H; inversion H'; subst; congruence. Qed.
Definition opts_agree (x : result verifying_config verror) (y : result key_provider verror) : Prop :=
  match x, y with Ok c, Ok keys => verifies_with c keys | Err e, Err e' => e = e' | _, _ => False end.
Lemma verify_opts_sound (w : world) (o : opt) : exists y, verify_opts w o y /\ opts_agree (verification_config_of w o) y.
Proof.
  unfold verification_config_of. destruct (read_key w (op_public_key o)) as [kd|e] eqn:K.
  2:{ pose proof (read_key_cases _ _ _ K). subst e. exists (Err VIo). split; [apply verify_io; now apply read_key_err|reflexivity]. }
  cbn [rbind]. unfold check_alg. destruct (op_algorithm o) as [a|] eqn:A.
  2:{ cbn [rbind]. exists (Ok (fun _ => [])). split; [apply verify_no_alg; [now apply (read_key_ok _ _ kd)|exact A]|]. repeat split. }
  destruct (known_alg a) eqn:N; cbn [rbind].
  2:{ eexists. split; [apply (verify_unknown w o a); [now apply (read_key_ok _ _ kd)|exact A|]|reflexivity]. intro I. apply known_iff in I. congruence. }
  apply known_iff in N. destruct kd as [pem|].
  2:{ cbn [rbind]. eexists. split; [apply (verify_no_key w o a); [now apply read_key_none in K|exact A|exact N]|reflexivity]. }
  apply read_key_some in K. destruct (rsa_type a) as [t|] eqn:T; cbn [rbind].
  2:{ eexists. split; [apply (verify_unsupported w o a pem); try assumption|reflexivity]. intros t L. apply loads_iff in L. congruence. }
  apply loads_iff in T. pose proof (public_key_val w t pem) as P. destruct (match t with RsaSha256 => _ | _ => _ end) as [key|]; cbn [rbind].
  - eexists. split; [now apply (verify_ok w o a t pem key)|]. unfold opts_agree, verifies_with. split; [|repeat split; reflexivity].
    intro id. unfold one_key, or_else. cbn [vc_keys vc_set_validate_date vc_set_require_digest vc_new]. unfold skp_provide, skp_add.
    cbn [imap_get imap_insert app]. now destruct (str_eqb _ _).
  - eexists. split; [now apply (verify_bad_key w o a t pem)|reflexivity].
Qed.
Lemma verify_opts_fun (w : world) (o : opt) (x y : result key_provider verror) : verify_opts w o x -> verify_opts w o y -> x = y.
Proof.
  intros H H'. destruct H; destruct H'; opts;
    repeat match goal with
    | K : public_key ?w ?t ?p ?x, K' : public_key ?w ?t ?p ?y |- _ => pose proof (public_key_fun _ _ _ _ _ K K') as E; try discriminate E; try (injection E as <-); clear K'
    end; try reflexivity; exfalso;
    repeat match goal with
    | K : key_file _ _ _ |- _ => pose proof (key_file_readable _ _ _ K); pose proof (key_file_given _ _ _ K); revert K
    end; intros;
    repeat match goal with K : loads _ _ |- _ => pose proof (loads_known _ _ K); revert K end; intros;
    try contradiction; try congruence;
    try match goal with U : unreadable _ ?f, E : ?f = None |- _ => destruct U as (? & U & _); congruence end;
    match goal with N : forall t, ~ loads ?a t, L : loads ?a _ |- _ => exact (N _ L) end.
Qed.
Lemma verify_opts_iff (w : world) (o : opt) :
  (exists y, verify_opts w o y /\ (forall y', verify_opts w o y' -> y' = y)
     /\ match verification_config_of w o, y with Ok c, Ok keys => verifies_with c keys | Err e, Err e' => e = e' | _, _ => False end).
Proof.
  destruct (verify_opts_sound w o) as (y & V & A). exists y. split; [exact V|]. split; [|exact A]. intros y' V'. exact (verify_opts_fun w o _ _ V' V).
Qed.

(** ** canonicalize *)
Lemma canon_opts_sound (o : opt) : canon_opts o (canonicalize_config o).
Proof.
  unfold canonicalize_config. destruct (parse_headers o) as [oc|e] eqn:H; cbn [rbind].
  2:{ pose proof (parse_headers_err _ _ H). subst e. apply canon_bad_headers, bad_headers_iff. eauto. }
  apply given_iff in H. pose proof (given_not_bad _ _ H) as B. destruct (op_algorithm o) as [a|] eqn:A; cbn [rbind]; [|now apply canon_no_alg].
  destruct (known_alg a) eqn:N; cbn [rbind].
  - apply known_iff in N. pose proof (canon_ok o a oc A N H) as S. revert S.
    destruct oc as [cs|], (op_created o) as [cr|], (op_expires o) as [ex|], (op_nonce o) as [n|], (op_label o) as [l|], (op_key_id o) as [k|]; exact (fun x => x).
  - apply (canon_unknown o a B A). intro I. apply known_iff in I. congruence.
Qed.
Lemma canon_opts_fun (o : opt) (x y : result canon_config verror) : canon_opts o x -> canon_opts o y -> x = y.
Proof.
  intros H H'. destruct H; destruct H'; opts; try reflexivity; exfalso;
    repeat match goal with K : given _ _ |- _ => pose proof (given_not_bad _ _ K); revert K end; intros; try contradiction; congruence.
Qed.
Lemma canon_opts_iff (o : opt) (r : result canon_config verror) : canonicalize_config o = r <-> canon_opts o r.
Proof. split; [intros <-; apply canon_opts_sound|]. intro H. exact (canon_opts_fun o _ _ (canon_opts_sound o) H). Qed.
