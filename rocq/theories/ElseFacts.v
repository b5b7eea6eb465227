(** Facts for C103. *)
From Verif Require Import SpecElse ShowFacts PipeFacts RunFacts OptFacts GrowFacts StrFacts SignFacts RoundTrip RoundFacts CanonFacts ReadFacts FlowFacts SpecSign TrustFacts ConvertFacts ReqFacts LineFacts VerifyFacts TailFacts DateFacts.

Lemma printed_canon (o : opt) (a : str) : canon_params (params_printed o a) = params_printed o a.
Proof. unfold params_printed, opt_param. destruct (op_created o), (op_expires o), (op_nonce o), (op_key_id o); reflexivity. Qed.
Lemma printed_rep (o : opt) (a t : str) : op_nonce o <> Some [] -> params_text (params_printed o a) t -> params_rep (params_printed o a).
Proof.
  intros Hn Ht. apply params_text_iff in Ht. apply params_good_rep.
  2:{ intros kv Hin. unfold params_printed, opt_param in Hin.
      destruct (op_created o), (op_expires o), (op_nonce o), (op_key_id o); cbn in Hin;
        repeat (destruct Hin as [<-|Hin]; [exact I|]); destruct Hin. }
  assert (G : forall kv, In kv (params_printed o a) -> key_good (fst kv) /\ snd kv <> BToken []).
  { intros kv Hin. unfold params_printed, opt_param in Hin.
    destruct (op_created o), (op_expires o), (op_nonce o), (op_key_id o); cbn in Hin;
      repeat (destruct Hin as [<-|Hin]; [split; [split; vm_compute; discriminate|cbn [snd]; let E := fresh in intro E; first [discriminate E|injection E as E; apply Hn; now rewrite E]]|]); destruct Hin. }
  apply (params_ne_good (params_printed o a) t); [|exact Ht].
  split.
  - unfold params_printed, opt_param, keys. destruct (op_created o), (op_expires o), (op_nonce o), (op_key_id o); cbn [map fst app];
      apply NoDup_nodup_str; reflexivity.
  - intros kv Hin. destruct (G kv Hin) as [[K _] B]. split; assumption.
Qed.
Lemma given_rep (o : opt) (oc : option (list component)) : given o oc -> Forall component_rep (or_else [] oc).
Proof.
  intro G. destruct oc as [cs|]; cbn [or_else]; [|constructor].
  inversion G as [| |h ws cs' H1 H2 H3]; [constructor|]. subst. clear - H3.
  induction H3 as [|x c xs cs X _ IH]; constructor; [|exact IH]. now apply component_text_iff, CompFacts.comp_from_str_ok in X.
Qed.
Lemma list_plain (l : list item) (p : list (str * bare)) (t : str) : inner_text l p t -> plain ($"sig=" ++ t).
Proof.
  intro H. apply inner_text_printable in H. apply Forall_app. split.
  - repeat (constructor; [left; vm_compute; split; congruence|]); constructor.
  - now apply printable_plain.
Qed.
Lemma printed_keyid (o : opt) (a : str) : value_of $"keyid" (params_printed o a) = option_map BString (op_key_id o).
Proof. unfold params_printed, opt_param. destruct (op_created o), (op_expires o), (op_nonce o), (op_key_id o); reflexivity. Qed.
Lemma printed_alg (o : opt) (a : str) : value_of $"alg" (params_printed o a) = Some (BString a).
Proof. unfold params_printed, opt_param. destruct (op_created o), (op_expires o), (op_nonce o), (op_key_id o); reflexivity. Qed.
Lemma printed_created (o : opt) (a : str) : value_of $"created" (params_printed o a) = option_map BInteger (op_created o).
Proof. unfold params_printed, opt_param. destruct (op_created o), (op_expires o), (op_nonce o), (op_key_id o); reflexivity. Qed.
Lemma printed_expires (o : opt) (a : str) : value_of $"expires" (params_printed o a) = option_map BInteger (op_expires o).
Proof. unfold params_printed, opt_param. destruct (op_created o), (op_expires o), (op_nonce o), (op_key_id o); reflexivity. Qed.

Lemma whole_lines (l : list str) : let b := List.concat (map (fun l => l ++ [ch_lf]) l) in b = [] \/ exists x, b = x ++ [ch_lf].
Proof.
  cbv zeta. destruct l as [|x l _] using rev_ind; [now left|]. right. rewrite map_app, concat_app. cbn [map List.concat]. rewrite app_nil_r, app_assoc. eauto.
Qed.
Lemma carrying_input (r : mock) (sp sig : str) : plain ($"sig=" ++ sp) -> mr_derive (carrying r sp sig) (CHeader $"signature-input") = Done (Some ($"sig=" ++ sp)).
Proof. intro P. unfold carrying. rewrite mr_set_other by discriminate. now apply mr_set. Qed.
Lemma carrying_sig (r : mock) (sp sig : str) : plain sig -> mr_derive (carrying r sp sig) (CHeader $"signature") = Done (Some ($"sig=:" ++ sig ++ $":")).
Proof.
  intro P. apply mr_set. apply Forall_app. split; [repeat (constructor; [left; vm_compute; split; congruence|]); constructor|].
  apply Forall_app. split; [exact P|]. repeat (constructor; [left; vm_compute; split; congruence|]); constructor.
Qed.
Lemma carrying_other (r : mock) (sp sig : str) (q : component) : ~ signature_header q -> mr_derive (carrying r sp sig) q = mr_derive r q.
Proof. intro N. unfold carrying. rewrite !mr_set_other; [reflexivity| |]; intros ->; apply N; [now right|now left]. Qed.
Lemma carrying_honest (r : mock) (sp sig : str) : honest_digest (carrying r sp sig) <-> honest_digest r.
Proof.
  unfold honest_digest. assert (E : mr_derive (carrying r sp sig) (CHeader $"digest") = mr_derive r (CHeader $"digest")).
  { apply carrying_other. intros [H|H]; discriminate H. }
  rewrite E. reflexivity.
Qed.
Lemma honest_ok (q : mock) (keys : str -> list http_verifier) : honest_digest q -> digest_ok mr_server q (checks keys).
Proof.
  assert (Cd : forall d, fst (sr_complete_with_digest mr_server q d) = option_map (dg_digest d) (mr_body q)) by (intros d; cbn; unfold mr_complete_with_digest; now destruct (mr_body q)).
  intro H. unfold digest_ok, header_value. change (rl_derive (sr_rl mr_server) q) with (mr_derive q).
  destruct (mr_derive q (CHeader $"digest")) as [[dv|]|] eqn:D.
  - left. exists dv. split; [reflexivity|]. intros _. destruct (H dv D) as (alg & v & H1 & H2). exists alg, v. split; [exact H1|]. now rewrite Cd.
  - right. split; [reflexivity|discriminate].
  - exfalso. unfold mr_derive in D. destruct (hm_get _ _) as [z|]; [|discriminate]. destruct (hvalue_visible z); discriminate.
Qed.

Lemma carrying_accepts (o : opt) (r : mock) (a m : str) (cs : list component) : Forall component_rep cs -> op_nonce o <> Some [] ->
  (forall p, In p cs -> ~ signature_header p) -> signature_base (mr_derive r) cs (params_printed o a) m ->
  exists sp, on_last_line m sp /\ forall (keys : str -> list http_verifier) (ve : verify_env) (sig kid : str), plain sig -> clean_signature sig ->
    (accepts mr_server (carrying r sp sig) (checks keys) ve kid <->
     op_key_id o = Some kid /\ (exists k, In k (keys kid) /\ vf_verify k m sig = true) /\ honest_digest r
     /\ (forall t, op_created o = Some t -> (t <= seconds (ve_sys ve))%Z) /\ (forall t, op_expires o = Some t -> (seconds (ve_sys ve) <= t)%Z)).
Proof.
  intros Rep Nn Ns B. pose proof B as (ids & vals & sp & _ & _ & I & E). exists sp. split.
  { split; [intro X; apply (last_no_lf _ _ _ I); apply in_or_app; now right|]. rewrite lines_end in E. eexists. split; [|exact E]. apply whole_lines. }
  intros keys ve sig kid Ps Cl. pose proof (list_plain _ _ _ I) as Pl.
  set (cc := CanonConfig (Some $"sig") (map canon_component cs) (params_printed o a)).
  assert (P : input_reads ($"sig=" ++ sp) cc).
  { pose proof (print_parse_exact (CanonConfig None cs (params_printed o a)) ($"sig=" ++ sp)) as P.
    cbn [cc_components cc_params] in P. rewrite printed_canon in P. apply cc_parse_iff, P.
    - split; [split; [discriminate|apply key_text_const; reflexivity]|]. split; [exact Rep|].
      destruct I as (its & pt & _ & Pt & _). exact (printed_rep o a pt Nn Pt).
    - unfold cc_to_signature_input, si_to_string, si_new. cbn [si_label si_list cc_get_label cc_label cc_components cc_params].
      assert (X : ser_dict1 $"sig" (cl_new cs (params_printed o a)) = Some ($"sig=" ++ sp)).
      { apply label_text. exists sp. split; [exact I|reflexivity]. }
      now rewrite X. }
  assert (B' : signature_base (mr_derive (carrying r sp sig)) (cc_components cc) (cc_params cc) m).
  { cbn [cc cc_components cc_params]. rewrite <- (printed_canon o a). apply (canon_base (mr_derive r)); [|exact B]. intros q Hq.
    rewrite Forall_forall in Rep. pose proof (sl_same _ mr_server_laws (carrying r sp sig) _ _ (canon_component_same q (Rep q Hq))) as X.
    change (mr_derive (carrying r sp sig) (canon_component q) = mr_derive (carrying r sp sig) q) in X. rewrite X. apply carrying_other. now apply Ns. }
  split.
  - intro A. pose proof (accepts_honest _ _ _ _ A) as Hd. destruct A as (cc' & s & (input & sigv & H1 & H2 & H3 & H4 & H5 & _) & [T1 T2] & (base & k & K1 & K2 & K3) & _).
    unfold header_value in H1, H3. change (rl_derive (sr_rl mr_server)) with mr_derive in H1, H3, K1.
    rewrite (carrying_input _ _ _ Pl) in H1. injection H1 as <-. rewrite (carrying_sig _ _ _ Ps) in H3. injection H3 as <-.
    pose proof (input_reads_unique _ _ _ H2 P) as ->. cbn [cc cc_get_label cc_label cc_params] in *.
    apply (member_text $"sig" sig) in H4; [|vm_compute; intuition discriminate|exact Cl]. destruct H4 as [_ ->].
    pose proof (signature_base_fun _ _ _ _ _ K1 B') as ->. rewrite printed_keyid in H5. rewrite printed_created in T1. rewrite printed_expires in T2.
    split; [destruct (op_key_id o); [|discriminate]; cbn in H5; congruence|]. split; [exists k; now split|]. split; [now apply carrying_honest in Hd|].
    split; intros t Et; [apply T1|apply T2]; now rewrite Et.
  - intros (Ek & (k & K1 & K2) & Hd & T1 & T2). exists cc, sig. split; [|split; [|split; [|split; [constructor|split; [discriminate|now apply honest_ok, carrying_honest]]]]].
    + exists ($"sig=" ++ sp), ($"sig=:" ++ sig ++ $":"). unfold header_value. change (rl_derive (sr_rl mr_server)) with mr_derive.
      split; [now apply carrying_input|]. split; [exact P|]. split; [now apply carrying_sig|]. cbn [cc cc_get_label cc_label cc_params].
      split; [apply (member_text $"sig" sig); [vm_compute; intuition discriminate|exact Cl|auto]|]. rewrite printed_keyid, Ek. split; [reflexivity|]. exists a. apply printed_alg.
    + unfold times_ok. cbn [cc cc_params]. rewrite printed_created, printed_expires. split; intros t Et; [apply T1|apply T2].
      * destruct (op_created o); [|discriminate]. cbn in Et. congruence.
      * destruct (op_expires o); [|discriminate]. cbn in Et. congruence.
    + exists m, k. change (rl_derive (sr_rl mr_server)) with mr_derive. split; [exact B'|]. now split.
Qed.

Lemma signed_elsewhere (w : world) (o : opt) (stdin : str) (r : mock) (se : sign_env) (ve : verify_env) (m : str) :
  op_mode o = MCanonicalize -> run_request w o stdin r -> run w o stdin se ve = Done (Ok m) -> op_nonce o <> Some [] ->
  (forall cs p, given o (Some cs) -> In p cs -> ~ signature_header p) ->
  exists sp, on_last_line m sp /\ forall (w' : world) (ov : opt) (t sig : str) (se' : sign_env) (ve' : verify_env),
    op_mode ov = MVerify -> sys_clock_ok (ve_sys ve') -> plain sig -> clean_signature sig -> run_request w' ov t (carrying r sp sig) ->
    (run w' ov t se' ve' = Done (Ok []) <->
     (exists kid keys k, op_key_id o = Some kid /\ verify_opts w' ov (Ok keys) /\ In k (keys kid) /\ vf_verify k m sig = true) /\ honest_digest r
     /\ (forall t, op_created o = Some t -> (t <= seconds (ve_sys ve'))%Z) /\ (forall t, op_expires o = Some t -> (seconds (ve_sys ve') <= t)%Z)).
Proof.
  intros M RR R Nn Ns. destruct (printed_base _ _ _ _ _ _ M R) as (r0 & a & oc & RR0 & _ & _ & G & B).
  pose proof (run_request_fun _ _ _ _ _ RR RR0). subst r0. clear RR0.
  destruct (carrying_accepts o r a m (or_else [] oc) (given_rep _ _ G) Nn) as (sp & L & A); [|exact B|].
  { intros p Ip. destruct oc as [cs|]; [exact (Ns cs p G Ip)|destruct Ip]. }
  exists sp. split; [exact L|]. intros w' ov t sig se' ve' Mv C Ps Cl RQ. rewrite (run_verify w' ov t se' ve' _ C Mv). split.
  - intro V. inversion V as [| |q keys kid RQ' O Ac| |]; subst. pose proof (run_request_fun _ _ _ _ _ RQ RQ'). subst q.
    apply A in Ac; [|assumption|assumption]. destruct Ac as (Ek & (k & K1 & K2) & Hd & T). split; [exists kid, keys, k; auto|]. now split.
  - intros ((kid & keys & k & Ek & O & K1 & K2) & Hd & T1 & T2). apply (verify_accepted w' ov t ve' (carrying r sp sig) keys kid RQ O).
    apply A; [assumption|assumption|]. split; [exact Ek|]. split; [exists k; now split|]. now repeat split.
Qed.

Lemma last_line_fun (m sp sp' : str) : on_last_line m sp -> on_last_line m sp' -> sp = sp'.
Proof.
  assert (K : forall b c n s s' : str, no_lf (n ++ s) -> no_lf (n ++ s') -> (b = [] \/ exists x, b = x ++ [ch_lf]) ->
    c = [] \/ (exists x, c = x ++ [ch_lf]) -> b ++ n ++ s = c ++ n ++ s' -> s = s').
  { intros b c n s s' N N' Eb Ec H. apply split_two in H. destruct H as (l & [[E F]|[E F]]); subst.
    - destruct l as [|e l _] using rev_ind; [cbn [app] in F; apply app_inv_head in F; congruence|]. exfalso. destruct Eb as [Eb|[x Eb]].
      + destruct c; [destruct l|]; discriminate Eb.
      + rewrite app_assoc in Eb. apply app_inj_tail in Eb. destruct Eb as [_ ->]. apply N'. rewrite F. apply in_or_app. left. apply in_or_app. right. now left.
    - destruct l as [|e l _] using rev_ind; [cbn [app] in F; apply app_inv_head in F; congruence|]. exfalso. destruct Ec as [Ec|[x Ec]].
      + destruct b; [destruct l|]; discriminate Ec.
      + rewrite app_assoc in Ec. apply app_inj_tail in Ec. destruct Ec as [_ ->]. apply N. rewrite F. apply in_or_app. left. apply in_or_app. right. now left. }
  assert (Nn : forall s, no_lf s -> no_lf ($"""@signature-params"": " ++ s)).
  { intros s N. apply no_lf_app; [apply no_lf_lit; reflexivity|exact N]. }
  intros (N & b & Eb & ->) (N' & c & Ec & E). exact (K b c _ sp sp' (Nn _ N) (Nn _ N') Eb Ec E).
Qed.
