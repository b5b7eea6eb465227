(** Facts for C44 and C103: an empty nonce is a list that cannot be read. *)
From Verif Require Import SpecElse ElseFacts ShowFacts PipeFacts RunFacts OptFacts GrowFacts StrFacts SignFacts RoundTrip RoundFacts CanonFacts SfvFacts SpecFacts ReadFacts FlowFacts SpecSign ConvertFacts ReqFacts VerifyFacts SpecFlow.

Definition no_params (rest : str) : Prop := forall fuel acc, parse_params_loop fuel rest acc = None.
Lemma nonce_bad (rest : str) : parse_bare_item rest = None -> no_params ($";nonce=" ++ rest).
Proof.
  intros E [|f] acc; [reflexivity|]. cbn [parse_params_loop]. change ($";nonce=" ++ rest) with (";"%char :: $"nonce" ++ "="%char :: rest). cbv iota.
  change (Ascii.eqb ";" ";") with true. cbv iota.
  change (skip_sp ($"nonce" ++ "="%char :: rest)) with ($"nonce" ++ "="%char :: rest).
  rewrite (parse_ser_key $"nonce" $"nonce" ("="%char :: rest)); [|reflexivity|discriminate|reflexivity].
  cbv iota. change (Ascii.eqb "=" "=") with true. cbv iota. now rewrite E.
Qed.
Lemma params_bad (p : list (str * bare)) (t rest : str) : ser_params p = Some t -> (forall kv, In kv p -> fst kv <> [] /\ snd kv <> BToken []) -> follows rest ->
  no_params rest -> no_params (t ++ rest).
Proof.
  intros H Hne Fr B. revert t H. induction p as [|[k v] p IH]; intros t H.
  - cbn in H. injection H as <-. exact B.
  - cbn [ser_params] in H. destruct (ser_param (k, v)) as [a|] eqn:Ea; [|discriminate].
    destruct (ser_params p) as [b|] eqn:Eb; [|discriminate]. injection H as <-.
    pose proof (Hne (k, v) (or_introl eq_refl)) as [Hk Hv]. cbn [fst snd] in *.
    specialize (IH (fun kv I => Hne kv (or_intror I)) b eq_refl).
    assert (Hfb : follows (b ++ rest)).
    { pose proof (ser_params_shape _ _ Eb) as Sb. destruct b as [|c b]; [exact Fr|]. subst. reflexivity. }
    unfold ser_param in Ea. cbn [fst snd] in Ea. destruct (ser_key k) as [kt|] eqn:Ek; [|discriminate].
    pose proof (ser_key_some _ _ Ek) as (Ekt & K1 & K2).
    assert (Hsp : forall r, skip_sp (kt ++ r) = kt ++ r).
    { intro r. apply drop_while_id. subst kt. destruct k as [|c k]; [easy|]. now apply key_start_char. }
    assert (Hval : forall u, a = ";"%char :: kt ++ $"=" ++ u -> ser_bare v = Some u -> no_params ((a ++ b) ++ rest)).
    { intros u Ha Hu. subst a. intros [|f] acc; [reflexivity|].
      cbn [app parse_params_loop]. change (Ascii.eqb ";" ";") with true. cbv iota.
      rewrite <- !app_assoc. rewrite Hsp.
      rewrite (parse_ser_key k kt _ Ek Hk) by reflexivity.
      change ($"=" ++ u ++ b ++ rest) with ("="%char :: u ++ b ++ rest).
      change (Ascii.eqb "=" "=") with true. cbv iota.
      rewrite (parse_ser_bare v u (b ++ rest) Hu Hv Hfb). apply IH. }
    destruct v as [d|z|s|bs|bb|s];
      try (destruct (ser_bare _) as [u|] eqn:Eu in Ea; [|discriminate]; injection Ea as <-;
           now apply (Hval u)).
    destruct bb.
    + injection Ea as <-. intros [|f] acc; [reflexivity|].
      cbn [app parse_params_loop]. change (Ascii.eqb ";" ";") with true. cbv iota.
      rewrite <- !app_assoc. rewrite Hsp.
      destruct (follows_stops _ Hfb) as (_ & _ & S3 & S4).
      rewrite (parse_ser_key k kt _ Ek Hk S3).
      destruct (b ++ rest) as [|e r] eqn:Ebr; [apply IH|]. destruct S4 as [_ ->]. apply IH.
    + injection Ea as <-. now apply (Hval $"?0").
Qed.
Lemma inner_bad (its : list item) (ts : list str) (bad : str) : ser_items its = Some ts -> (forall i, In i its -> item_ne i) -> parse_params bad = None ->
  forall fuel acc, parse_inner_loop fuel (join $" " ts ++ ")"%char :: bad) acc = None
    /\ parse_inner_loop fuel (" "%char :: join $" " ts ++ ")"%char :: bad) acc = None.
Proof.
  intros Hs Hne B. revert ts Hs. induction its as [|i its IH]; intros ts Hs fuel acc; (destruct fuel as [|f]; [split; reflexivity|]).
  - cbn in Hs. injection Hs as <-. cbn [join app parse_inner_loop].
    change (skip_sp (" "%char :: ")"%char :: bad)) with (")"%char :: bad). change (skip_sp (")"%char :: bad)) with (")"%char :: bad).
    cbv iota. change (Ascii.eqb ")" ")") with true. cbv iota. rewrite B. split; reflexivity.
  - cbn [ser_items] in Hs. destruct (ser_item i) as [a|] eqn:Ea; [|discriminate].
    destruct (ser_items its) as [bs|] eqn:Eb; [|discriminate]. injection Hs as <-.
    assert (Hi : item_ne i) by (apply Hne; now left).
    destruct (ser_item_head i a Ea Hi) as (c & a' & Ha & Hc).
    destruct (bare_head_facts c Hc) as (F1 & F2 & F3 & F4).
    specialize (IH (fun j Hj => Hne j (or_intror Hj)) bs eq_refl).
    assert (Step : forall tail, pends tail -> parse_item (a ++ tail) = Some (canon_item i, tail)) by (intros tail Ht; now apply parse_ser_item).
    assert (Key : match parse_item (join $" " (a :: bs) ++ ")"%char :: bad) with
       | None => None
       | Some (i0, r) => match r with
                        | d :: _ => if is_sp d || Ascii.eqb d ")" then parse_inner_loop f r (i0 :: acc) else None
                        | [] => None end
       end = None).
    { destruct bs as [|b bs].
      - cbn [join]. rewrite Step by reflexivity. change (is_sp ")" || Ascii.eqb ")" ")") with true. cbv iota. exact (proj1 (IH f _)).
      - rewrite join_cons. rewrite <- app_assoc. rewrite Step by reflexivity.
        change (($" " ++ join $" " (b :: bs)) ++ ")"%char :: bad) with (" "%char :: join $" " (b :: bs) ++ ")"%char :: bad).
        change (is_sp " " || Ascii.eqb " " ")") with true. cbv iota. exact (proj2 (IH f _)). }
    assert (J : exists w, join $" " (a :: bs) = c :: w).
    { rewrite Ha. destruct bs; [eexists; reflexivity|]. rewrite join_cons. eexists. reflexivity. }
    destruct J as [w J]. rewrite J in Key |- *. cbn [app] in Key |- *.
    assert (SK : skip_sp (c :: w ++ ")"%char :: bad) = c :: w ++ ")"%char :: bad) by (unfold skip_sp; cbn [drop_while]; now rewrite F1).
    split.
    + cbn [parse_inner_loop]. rewrite SK, F2. exact Key.
    + cbn [parse_inner_loop].
      change (skip_sp (" "%char :: c :: w ++ ")"%char :: bad)) with (skip_sp (c :: w ++ ")"%char :: bad)).
      rewrite SK, F2. exact Key.
Qed.
Lemma dict_bad (its : list item) (ts : list str) (bad : str) : ser_items its = Some ts -> (forall i, In i its -> item_ne i) -> parse_params bad = None ->
  parse_dictionary ($"sig=(" ++ join $" " ts ++ ")"%char :: bad) = None.
Proof.
  intros Hs Hne B. unfold parse_dictionary. destruct (is_ascii _); [|reflexivity].
  change (skip_sp ($"sig=(" ++ join $" " ts ++ ")"%char :: bad)) with ($"sig" ++ "="%char :: "("%char :: join $" " ts ++ ")"%char :: bad).
  cbn [parse_dict_loop]. rewrite (parse_ser_key $"sig" $"sig"); [|reflexivity|discriminate|reflexivity].
  change (Ascii.eqb "=" "=") with true. cbv iota zeta. unfold parse_list_entry at 1. change (Ascii.eqb "(" "(") with true. cbv iota.
  unfold parse_inner_list_body. now rewrite (proj1 (inner_bad its ts bad Hs Hne B _ _)).
Qed.

(** A list with an empty nonce among its parameters. *)
Lemma nonce_unreadable (cs : list component) (p q : list (str * bare)) (sp : str) : Forall component_rep cs ->
  (forall kv, In kv p -> fst kv <> [] /\ snd kv <> BToken []) -> inner_text (map component_item cs) (p ++ ($"nonce", BToken []) :: q) sp ->
  forall cc, ~ input_reads ($"sig=" ++ sp) cc.
Proof.
  intros Rep Hp I cc Rd. apply cc_parse_iff in Rd. unfold cc_parse, si_parse in Rd.
  assert (E : parse_dictionary ($"sig=" ++ sp) = None); [|rewrite E in Rd; discriminate Rd].
  pose proof I as (its & pt0 & _ & P & _). apply params_app in P. destruct P as (a & b & A & P & _).
  inversion P as [|? ? kt c K Pq|? ? ? kt vt c Nt K V Pq]; subst. clear P. destruct K as (_ & _ & ->). destruct V as (_ & _ & ->).
  assert (Nc : parse_bare_item c = None).
  { destruct (parse_bare_item c) as [x|] eqn:X; [|reflexivity]. exfalso. apply parse_bare_head in X. destruct X as (d & c' & -> & Hd).
    apply params_text_iff, ser_params_shape in Pq. subst d. discriminate Hd. }
  assert (Sp : ser_params (p ++ ($"nonce", BToken []) :: q) = Some (a ++ $";nonce=" ++ c)).
  { apply params_text_iff. clear - A Pq. induction A as [|k p kt pt K P IH|k v p kt vt pt N K V P IH]; cbn [app].
    - apply (pt_value $"nonce" (BToken []) q $"nonce" [] c); [discriminate|exact key_nonce|repeat split; [constructor|discriminate]|exact Pq].
    - rewrite <- ?app_comm_cons, <- !app_assoc. apply (pt_true k _ kt); [exact K|exact IH].
    - rewrite <- ?app_comm_cons, <- !app_assoc, <- ?app_comm_cons, <- ?app_assoc. apply (pt_value k v _ kt vt); [exact N|exact K|exact V|exact IH]. }
  apply inner_text_iff, ser_inner_parts in I. destruct I as (ts & pt & Es & Ep & ->). cbn [il_items il_params] in Es, Ep.
  rewrite Sp in Ep. injection Ep as <-. change ($"sig=" ++ "("%char :: join $" " ts ++ ")"%char :: a ++ $";nonce=" ++ c) with ($"sig=(" ++ join $" " ts ++ ")"%char :: a ++ $";nonce=" ++ c).
  apply (dict_bad _ ts _ Es).
  - assert (G : inner_good (cl_new cs [])) by (apply components_rep_good; [exact Rep|split; constructor]). apply inner_good_ne in G. destruct G as [G _].
    unfold cl_new in G. cbn [il_items] in G. rewrite comp_items_eq. exact G.
  - unfold parse_params. apply (params_bad p a); [now apply params_text_iff|exact Hp|reflexivity|now apply nonce_bad].
Qed.
Lemma verify_unread_input {S Rem} (sr : server_request_like S Rem) (s : S) (vc : verifying_config) (venv : verify_env) (input : str) :
  rl_derive (sr_rl sr) s (CHeader $"signature-input") = Done (Some input) -> (forall cc, ~ input_reads input cc) -> verify sr s vc venv = Panic.
Proof.
  intros D N. unfold verify, verify_except_digest, verify_signature_only. change h_signature_input with $"signature-input". rewrite D. cbn [oobind obind].
  assert (E : forall cc, cc_parse input <> Done (Ok cc)) by (intros cc E; apply cc_parse_iff in E; exact (N cc E)).
  destruct (cc_parse input) as [[cc|e]|]; [now destruct (E cc)|reflexivity|reflexivity].
Qed.

Lemma sign_empty_nonce {R} (cr : client_request_like R) (L : client_laws cr) (r r' : R) (c : signing_config) (env : sign_env)
  {S Rem} (sr : server_request_like S Rem) (s : S) (vc : verifying_config) (venv : verify_env) :
  sys_clock_ok (se_sys env) -> Forall component_rep (sc_components c) -> sc_nonce c = Some [] -> sign cr r c env = Done (r', Ok tt) ->
  rl_derive (sr_rl sr) s (CHeader $"signature-input") = rl_derive (cr_rl cr) r' (CHeader $"signature-input") -> verify sr s vc venv = Panic.
Proof.
  intros C Rep N Sg Eq. destruct (sign_ok_facts cr L r r' c env C Sg) as (cs & base & sp & Cov & _ & _ & B & I & D1 & _).
  rewrite D1 in Eq. apply (verify_unread_input _ _ _ _ _ Eq).
  assert (Rcs : Forall component_rep cs).
  { unfold covered in Cov. destruct (sc_skip_missing c); [|now subst cs]. rewrite Forall_forall in *. intros q Hq. apply Rep. apply (keeps_sub _ _ _ Cov). exact Hq. }
  unfold stamp in I. rewrite N in I. cbn [opt_param] in I. rewrite !app_assoc in I.
  refine (nonce_unreadable cs _ [] sp Rcs _ I).
  intros kv Hin. unfold opt_param in Hin.
  destruct (created_at c _), (expires_at c _); cbn in Hin;
    repeat (destruct Hin as [<-|Hin]; [split; cbn; discriminate|]); destruct Hin.
Qed.

Lemma shown_empty_nonce (w : world) (o : opt) (stdin : str) (r : mock) (se : sign_env) (ve : verify_env) (m : str) :
  op_mode o = MCanonicalize -> run_request w o stdin r -> run w o stdin se ve = Done (Ok m) -> op_nonce o = Some [] ->
  exists sp, on_last_line m sp /\ forall (w' : world) (ov : opt) (t sig : str) (se' : sign_env) (ve' : verify_env) (keys : key_provider),
    op_mode ov = MVerify -> sys_clock_ok (ve_sys ve') -> verify_opts w' ov (Ok keys) -> run_request w' ov t (carrying r sp sig) ->
    run w' ov t se' ve' = Panic.
Proof.
  intros M RR R N. destruct (printed_base _ _ _ _ _ _ M R) as (r0 & a & oc & RR0 & _ & _ & G & B).
  pose proof B as (ids & vals & sp & _ & _ & I & E). exists sp. split.
  { split; [intro X; apply (last_no_lf _ _ _ I); apply in_or_app; now right|]. rewrite lines_end in E. eexists. split; [|exact E]. apply whole_lines. }
  intros w' ov t sig se' ve' keys Mv C O RQ. apply run_verify; [exact C|exact Mv|]. apply (verify_unreadable w' ov t ve' (carrying r sp sig) keys RQ O).
  pose proof (list_plain _ _ _ I) as Pl.
  assert (U : forall cc, ~ input_reads ($"sig=" ++ sp) cc).
  { unfold params_printed in I. rewrite N in I. cbn [opt_param] in I. rewrite app_assoc in I.
    refine (nonce_unreadable _ _ _ sp (given_rep _ _ G) _ I). intros kv Hin. unfold opt_param in Hin.
    destruct (op_created o), (op_expires o); cbn in Hin;
      repeat (destruct Hin as [<-|Hin]; [split; cbn; discriminate|]); destruct Hin. }
  intro Rd. exact (proj1 (cc_parse_not_ok _) U (Rd _ (carrying_input r sp sig Pl))).
Qed.
