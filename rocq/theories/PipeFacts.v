(** Signing with the validator and verifying its output with the validator. *)
From Verif Require Export OptFacts CompFacts RoundTrip.

Lemma string_ends (s t : str) : string_text s t -> exists x, t = x ++ [ch_quote].
Proof. intros (_ & ->). eexists. rewrite app_assoc. reflexivity. Qed.
Lemma params_app (p q : list (str * bare)) (t : str) : params_text (p ++ q) t -> exists a b, params_text p a /\ params_text q b /\ t = a ++ b.
Proof.
  revert t. induction p as [|[k v] p IH]; intros t H; cbn [app] in H.
  - exists [], t. split; [constructor|auto].
  - inversion H as [|? ? kt pt K P|? ? ? kt vt pt N K V P]; subst.
    + destruct (IH _ P) as (a & b & A & B & ->). eexists _, b. split; [now apply pt_true; [exact K|exact A]|]. split; [exact B|]. now rewrite <- !app_assoc.
    + destruct (IH _ P) as (a & b & A & B & ->). eexists _, b. split; [now apply pt_value; [exact N|exact K|exact V|exact A]|]. split; [exact B|]. now rewrite <- !app_assoc.
Qed.
Lemma stamp_ends (c : signing_config) (now : Z) (t : str) : sc_nonce c = None -> params_text (stamp c now) t -> exists x, t = x ++ [ch_quote].
Proof.
  intros N H. unfold stamp in H. rewrite N in H. cbn [opt_param] in H. rewrite app_nil_r in H. rewrite !app_assoc in H.
  apply params_app in H. destruct H as (a & b & _ & B & ->). inversion B as [|? ? kt pt K P|? ? ? kt vt pt Nt K V P]; subst. inversion P; subst.
  apply string_ends in V. destruct V as [x ->]. exists (a ++ [";"%char] ++ kt ++ ["="%char] ++ x). now rewrite app_nil_r, <- !app_assoc.
Qed.
Lemma edges_of (s : str) (c d : ascii) (x y : str) : s = c :: x -> s = y ++ [d] -> ws1 c = false -> ws1 d = false -> no_edge_ws s.
Proof.
  intros E F C D. split; intros e z G.
  - assert (e = c) by congruence. now subst.
  - rewrite G in F. apply app_inj_tail in F. destruct F as [_ ->]. exact D.
Qed.

(** A request with no automatic headers. *)
Lemma sign_plain (r r' : mock) (c : signing_config) (env : sign_env) : sys_clock_ok (se_sys env) ->
  sc_add_date c = false -> sc_add_host c = false -> sc_compute_digest c = false -> sc_nonce c = None ->
  sign mr_client r c env = Done (r', Ok tt) -> exists v1 v2, no_edge_ws v1
    /\ ((forall x z, sc_label c = x :: z -> ws1 x = false) -> no_edge_ws v2)
    /\ (exists base, v2 = signature_text c (se_rnd env) base)
    /\ r' = mr_set_header (mr_set_header r $"signature-input" v1) $"signature" v2.
Proof.
  intros S D H G N Sg. apply sign_result_of in Sg; [|exact S]. destruct Sg as (r1 & cs & A & Sg).
  assert (E : r1 = r).
  { unfold add_auto_headers, add_date, add_host, add_digest in A. rewrite D, H, G in A. cbn [obind] in A.
    destruct (if sc_skip_missing c then _ else _); cbn [obind] in A; [|discriminate]. congruence. }
  subst r1. inversion Sg as [| | | |base sp N1 N2 B I Lg E1 E2]; subst. exists ($"sig=" ++ sp), (signature_text c (se_rnd env) base).
  split; [|split; [|split; [now exists base|reflexivity]]].
  - destruct I as (its & pt & _ & P & ->). apply (stamp_ends _ _ _ N) in P. destruct P as [x ->].
    eapply edges_of; [reflexivity| |reflexivity|].
    + rewrite !app_assoc. reflexivity.
    + reflexivity.
  - intro Lb. unfold signature_text. destruct (sc_label c) as [|x z].
    + eapply edges_of; [reflexivity| |reflexivity|].
      * rewrite !app_assoc. reflexivity.
      * reflexivity.
    + eapply edges_of; [reflexivity| |exact (Lb _ _ eq_refl)|].
      * rewrite !app_assoc. reflexivity.
      * reflexivity.
Qed.

Lemma mr_version_derive (v : version) (r : mock) (q : component) : mr_derive (as_version v r) q = mr_derive r q.
Proof. reflexivity. Qed.

(** Reading what was written after setting headers on a request that was read. *)
Lemma read_set (trace : bool) (up : url_parser) (s t : str) (r : mock) (v1 v2 : str) :
  from_reader trace up s = Done (Some r) -> no_edge_ws v1 -> no_edge_ws v2 ->
  let r' := mr_set_header (mr_set_header r $"signature-input" v1) $"signature" v2 in
  write r' = Some t -> from_reader trace up t = Done (Some (as_version HTTP_11 r')).
Proof.
  intros R E1 E2 r' W. pose proof R as R0. apply read_accepts in R0. destruct R0 as (F & Lg & U).
  apply write_read; [| | |exact W].
  - apply write_iff in W. destruct W as [Sh _]. apply shown_iff in Sh.
    apply frames_iff in F. unfold from_reader in F. destruct (read_line s) as [[line rest]|] eqn:RL; [|discriminate].
    apply read_line_ok in RL. destruct RL as [_ Ut].
    pose proof (words_of line [] Ut (Forall_nil _)) as Wd. fold (split_ascii_whitespace line) in Wd.
    destruct (split_ascii_whitespace line) as [|m [|path [|v ws]]]; try discriminate.
    destruct (method_parse m) as [m'|] eqn:M; [|discriminate]. destruct (version_parse v) as [ver|]; [|discriminate].
    destruct (read_headers _ rest []) as [[[hs b] body]|] eqn:H; [|discriminate]. cbn [andb derive_url obind] in F. injection F as F.
    apply read_headers_inv in H; [|constructor|constructor]. destruct H as [Hd Hf].
    inversion Wd as [|? ? (M1 & _ & _) W1]; subst. inversion W1 as [|? ? (P1 & P2 & P3) _]; subst.
    unfold method_parse in M. destruct (method_ok m) eqn:Mo; [|discriminate]. injection M as <-. unfold method_ok in Mo. apply andb_prop in Mo. destruct Mo as [_ Mo].
    subst r'. rewrite <- F in *. unfold mr_set_header in *. cbn [mr_method mr_path mr_headers mr_version mr_url mr_body] in *.
    split; [|split; [|split]]; cbn [mr_method mr_path mr_headers].
    + split; [exact M1|]. apply Forall_forall. intros c I. apply tchar_iff. now apply (forallb_In _ _ _ Mo).
    + split; [exact P1|]. split; [exact P2|]. revert P3. apply Forall_impl. intros c C B. apply blank_iff in B. congruence.
    + now apply hm_insert_nodup, hm_insert_nodup.
    + apply Forall_forall. intros h I. rewrite Forall_forall in Hf, Sh.
      assert (X : header_name (fst h) /\ no_edge_ws (snd h)).
      { apply hm_insert_in in I. destruct I as [->|I]; [split; [apply header_name_ok; reflexivity|exact E2]|].
        apply hm_insert_in in I. destruct I as [->|I]; [split; [apply header_name_ok; reflexivity|exact E1]|]. now apply Hf. }
      destruct X as [X1 X2]. split; [exact X1|]. apply edges_plain; [now apply Sh|exact X2].
  - apply target_url_iff. apply target_url_iff in U. subst r'. unfold mr_set_header. cbn [mr_path mr_headers mr_url]. rewrite <- U.
    unfold derive_url. destruct (up (mr_path r)) as [u|[]]; [reflexivity| |reflexivity].
    rewrite !hm_insert_get. reflexivity.
  - exact Lg.
Qed.

Lemma run_eq (w : world) (o : opt) (stdin : str) (se : sign_env) (ve : verify_env) : run w o stdin se ve =
  (do input <- match op_in_file o with Some f => unwrap (w_read w f) | None => Done stdin end;
   do or <- from_reader (w_trace w) (w_url w) input;
   do req <- unwrap or;
   match op_mode o with
   | MCanonicalize =>
       match canonicalize_config o with
       | Err e => Done (Err e)
       | Ok cc => do res <- canonicalize mr_rl req cc; Done (match res with Ok (base, _) => Ok base | Err _ => Err VSig end)
       end
   | MSign =>
       match signing_config_of w o with
       | Err e => Done (Err e)
       | Ok c => do (req', res) <- sign mr_client req c se;
           Done (match res with Err _ => Err VSig | Ok _ => match write req' with Some t => Ok t | None => Err VIo end end)
       end
   | MVerify =>
       match verification_config_of w o with
       | Err e => Done (Err e)
       | Ok c => do res <- verify mr_server req c ve; Done (match res with Ok _ => Ok [] | Err _ => Err VSig end)
       end
   end).
Proof.
  unfold run, main. destruct (match op_in_file o with Some f => unwrap (w_read w f) | None => Done stdin end) as [input|]; cbn [obind]; [|reflexivity].
  destruct (from_reader (w_trace w) (w_url w) input) as [[r|]|]; cbn [obind unwrap]; try reflexivity. destruct (op_mode o).
  - destruct (canonicalize_config o) as [cc|e]; [|reflexivity]. destruct (canonicalize mr_rl r cc) as [[[b si]|e]|]; reflexivity.
  - destruct (signing_config_of w o) as [c|e]; [|reflexivity]. destruct (sign mr_client r c se) as [[r' [u|e]]|]; cbn [obind]; try reflexivity.
    unfold write. destruct (write_out r') as [t [|]]; reflexivity.
  - destruct (verification_config_of w o) as [c|e]; [|reflexivity]. destruct (verify mr_server r c ve) as [[x|x]|]; reflexivity.
Qed.
Lemma run_read (w : world) (o : opt) (stdin : str) (se : sign_env) (ve : verify_env) (res : result str verror) :
  run w o stdin se ve = Done res -> exists r, run_request w o stdin r
    /\ match op_mode o with
       | MCanonicalize => match canonicalize_config o with
                          | Err e => res = Err e
                          | Ok cc => exists x, canonicalize mr_rl r cc = Done x /\ res = match x with Ok (base, _) => Ok base | Err _ => Err VSig end
                          end
       | MSign => match signing_config_of w o with
                  | Err e => res = Err e
                  | Ok c => exists r' x, sign mr_client r c se = Done (r', x)
                      /\ res = match x with Err _ => Err VSig | Ok _ => match write r' with Some t => Ok t | None => Err VIo end end
                  end
       | MVerify => match verification_config_of w o with
                    | Err e => res = Err e
                    | Ok c => exists x, verify mr_server r c ve = Done x /\ res = match x with Ok _ => Ok [] | Err _ => Err VSig end
                    end
       end.
Proof.
  rewrite run_eq. intro H.
  destruct (match op_in_file o with Some f => unwrap (w_read w f) | None => Done stdin end) as [input|] eqn:I; cbn [obind] in H; [|discriminate].
  destruct (from_reader (w_trace w) (w_url w) input) as [[r|]|] eqn:F; cbn [obind unwrap] in H; try discriminate.
  exists r. split.
  { exists input. split; [|now apply read_accepts]. unfold run_input. destruct (op_in_file o) as [f|]; [|congruence].
    destruct (w_read w f) as [x|]; cbn [unwrap] in I; congruence. }
  destruct (op_mode o).
  - destruct (canonicalize_config o) as [cc|e]; [|congruence]. destruct (canonicalize mr_rl r cc) as [x|]; cbn [obind] in H; [|discriminate].
    exists x. split; [reflexivity|]. destruct x as [[base si]|]; congruence.
  - destruct (signing_config_of w o) as [c|e]; [|congruence]. destruct (sign mr_client r c se) as [[r' x]|]; cbn [obind] in H; [|discriminate].
    exists r', x. split; [reflexivity|]. destruct x; [|congruence]. destruct (write r'); congruence.
  - destruct (verification_config_of w o) as [c|e]; [|congruence]. destruct (verify mr_server r c ve) as [x|]; cbn [obind] in H; [|discriminate].
    exists x. split; [reflexivity|]. destruct x; injection H as <-; reflexivity.
Qed.

Lemma sign_new_inv (cy : crypto) (rk : ring_keys) (t : key_type) (b : str) (sg : http_signer) :
  sign_new_pkcs8_pem cy rk t b = Some sg -> exists k, sg = ring_signer cy t k.
Proof. unfold sign_new_pkcs8_pem. destruct (andThen _ _) as [k|]; [|discriminate]. intro H. injection H as <-. eauto. Qed.
Lemma new_pkcs1_inv (cy : crypto) (t : key_type) (b : str) (vf : http_verifier) :
  verify_new_pkcs1_pem cy t b = Some vf -> exists k, vf = ring_verifier cy t k.
Proof. unfold verify_new_pkcs1_pem. destruct (pem_contents b) as [k|]; [|discriminate]. intro H. injection H as <-. eauto. Qed.
Lemma public_key_inv (w : world) (t : key_type) (pem : str) (vf : http_verifier) :
  public_key w t pem (Some vf) -> exists k, vf = ring_verifier (w_crypto w) t k.
Proof.
  intro H. remember (Some vf) as o eqn:O. destruct H as [p k E|p E|u p E]; [|now apply new_pkcs1_inv in O|now apply new_pkcs1_inv in O].
  injection O as ->. unfold verify_new_spki_pem in E. destruct (andThen _ _) as [k|]; [|discriminate]. injection E as <-. eauto.
Qed.
Lemma pipe (w : world) (os ov : opt) (stdin t : str) (se se' : sign_env) (ve ve' : verify_env) :
  op_mode os = MSign -> run w os stdin se ve = Done (Ok t) ->
  op_mode ov = MVerify -> op_in_file ov = None ->
  op_label os = None \/ op_label os = Some $"sig" ->
  op_key_id ov = op_key_id os -> key_pair w os ov (se_rnd se) ->
  sys_clock_ok (se_sys se) -> sys_clock_ok (ve_sys ve') ->
  (forall x, op_created os = Some x -> (x <= seconds (ve_sys ve'))%Z) ->
  (forall x, op_expires os = Some x -> (seconds (ve_sys ve') <= x)%Z) ->
  (forall cs q, given os (Some cs) -> In q cs -> ~ signature_header q) ->
  (forall r, run_request w os stdin r -> honest_digest r) ->
  run w ov t se' ve' = Done (Ok []).
Proof.
  intros Ms Rs Mv Fv Lb Ki (a & ty & spem & sk & vpem & pk & As & Av & Ld & Ks & Ps & Kv & Pv & Cy) S S' Cr Ex Ns Hd.
  apply run_read in Rs. destruct Rs as (r & RR & Rs). rewrite Ms in Rs.
  pose proof (sign_opts_sound w os) as So. destruct (signing_config_of w os) as [c|e]; [|congruence].
  destruct Rs as (r' & x & Sg & Rs). destruct x as [[]|]; [|discriminate]. destruct (write r') as [t'|] eqn:W; [|discriminate].
  assert (t' = t) by congruence. subst t'. clear Rs.
  inversion So as [a' ty' pem' key' oc A' L' K' P' G' E| | | | | | |]; subst. opts. clear So.
  try (assert (key' = sk) by congruence; subst key'). try (assert (sk = key') by congruence; subst sk).
  assert (Lbl : or_else $"sig" (op_label os) = $"sig") by (destruct Lb as [-> | ->]; reflexivity).
  destruct RR as (input & RI & RF). apply read_accepts in RF.
  match type of Sg with sign _ _ ?x _ = _ => set (cfg := x) in * end.
  destruct (sign_plain r r' cfg se S eq_refl eq_refl eq_refl eq_refl Sg) as (v1 & v2 & E1 & E2 & _ & Er).
  assert (Wl : forall x z, sc_label cfg = x :: z -> ws1 x = false).
  { change (sc_label cfg) with (or_else $"sig" (op_label os)). rewrite Lbl. intros x z E. injection E as <- <-. reflexivity. }
  specialize (E2 Wl).
  rewrite Er in W. pose proof (read_set _ _ _ _ _ _ _ RF E1 E2 W) as RT. rewrite <- Er in RT, W.
  rewrite run_eq, Fv. cbn [obind]. rewrite RT. cbn [obind unwrap]. rewrite Mv.
  destruct (verify_opts_sound w ov) as (y & V & Ag).
  assert (Y : y = Ok (one_key (or_else [] (op_key_id ov)) pk)).
  { apply (verify_opts_fun w ov _ _ V). now apply (verify_ok w ov a ty vpem pk). }
  subst y. destruct (verification_config_of w ov) as [vc|e]; [|contradiction]. destruct Ag as (Vk & Vd & Vr & Vq & Vv & Vt).
  assert (Given : Forall component_rep (sc_components cfg) /\ (forall q, In q (sc_components cfg) -> ~ signature_header q)).
  { subst cfg. cbn [sc_components]. destruct oc as [cs|]; cbn [or_else]; [|split; [constructor|easy]]. split; [|intros q; now apply Ns].
    inversion G' as [| |h ws cs' H1 H2 H3]; [constructor|]. subst. apply Forall_forall. intros q I.
    clear - H3 I. induction H3 as [|x c xs cs X _ IH]; [destruct I|]. destruct I as [->|I]; [now apply component_text_iff, comp_from_str_ok in X|now apply IH]. }
  destruct Given as [Rp Nsig].
  destruct (sign_verify mr_client mr_client_laws r r' cfg se S Sg Rp ltac:(discriminate) mr_server mr_server_laws (as_version HTTP_11 r') vc ve')
    with (k := pk) as (rem & Vf); try reflexivity; try assumption.
  - apply sign_new_inv in Ps. destruct Ps as [s0 ->]. apply public_key_inv in Pv. destruct Pv as [p0 ->].
    apply (proj1 (proj2 (proj2 (crate_matching (se_rnd se))))). intro m. specialize (Cy m).
    cbn [vf_verify ring_verifier sg_sign ring_signer] in Cy. unfold raw_http_verify, raw_http_sign in Cy.
    rewrite b64_decode_encode in Cy. now destruct ty.
  - rewrite Vk. subst cfg. cbn [sc_key_id]. unfold one_key. rewrite Ki, str_eqb_refl. now left.
  - intros x E. subst cfg. unfold created_at in E. cbn [sc_created] in E. destruct (op_created os) as [z|] eqn:Z; [|discriminate]. injection E as <-. now apply Cr.
  - intros x E. subst cfg. unfold expires_at in E. cbn [sc_expires] in E. destruct (op_expires os) as [z|] eqn:Z; [|discriminate]. injection E as <-. now apply Ex.
  - rewrite Vr. easy.
  - assert (Dg : mr_derive r' (CHeader $"digest") = mr_derive r (CHeader $"digest")).
    { rewrite Er, !mr_set_other by discriminate. reflexivity. }
    assert (Bd : mr_body r' = mr_body r) by now rewrite Er.
    specialize (Hd r (ex_intro _ input (conj RI (proj1 (read_accepts _ _ _ _) RF)))). unfold digest_ok, header_value.
    cbn [sr_rl mr_server rl_derive mr_rl sr_complete_with_digest]. rewrite mr_version_derive, Dg.
    unfold honest_digest in Hd. destruct (mr_derive r (CHeader $"digest")) as [[dv|]|] eqn:Dr; [| |discriminate].
    + left. eexists. split; [reflexivity|]. intros _. destruct (Hd _ eq_refl) as (alg & v & F & B). exists alg, v. rewrite Vd. split; [exact F|].
      unfold mr_complete_with_digest. cbn [as_version mr_body]. rewrite Bd. destruct (mr_body r); [exact B|discriminate].
    + right. split; [reflexivity|]. rewrite Vq. discriminate.
  - rewrite Vf. reflexivity.
Qed.

Lemma nonblank_ws (v : str) (c : ascii) : plain v -> In c v -> ~ blank c -> ws1 c = false.
Proof.
  intros P I B. apply plain_iff in P. unfold hvalue_visible in P. rewrite forallb_forall in P. specialize (P c I).
  assert (X : forallb (fun c => implb (is_visible c || (code c =? 9)%N) (implb (negb (Ascii.eqb c " ") && negb (Ascii.eqb c (ascii_of_nat 9))) (negb (ws1 c)))) all_bytes = true)
    by (vm_compute; reflexivity).
  pose proof (byte_all _ X c) as Y. cbv beta in Y.
  assert (N1 : Ascii.eqb c " " = false) by (apply Ascii.eqb_neq; intros ->; apply B; now left).
  assert (N2 : Ascii.eqb c (ascii_of_nat 9) = false) by (apply Ascii.eqb_neq; intros ->; apply B; now right).
  rewrite N1, N2, P in Y. cbn [negb andb implb] in Y. now destruct (ws1 c).
Qed.
Lemma hm_insert_has (m : header_map) (n v : str) : In (n, v) (hm_insert m n v).
Proof. induction m as [|[a w] m IH]; cbn [hm_insert]; [now left|]. destruct (str_eqb a n) eqn:E; [left; apply str_eqb_eq in E; congruence|now right]. Qed.
Lemma other_label_pipe (w : world) (os ov : opt) (stdin t out l : str) (se se' : sign_env) (ve ve' : verify_env) :
  op_mode os = MSign -> run w os stdin se ve = Done (Ok t) ->
  op_mode ov = MVerify -> op_in_file ov = None ->
  op_label os = Some l -> l <> $"sig" -> (forall x z, l = x :: z -> ~ blank x) ->
  sys_clock_ok (se_sys se) -> (forall s k m, cy_sign (w_crypto w) s k (se_rnd se) m <> []) ->
  run w ov t se' ve' <> Done (Ok out).
Proof.
  intros Ms Rs Mv Fv Lb Nl Wl S Ne Rv.
  apply run_read in Rs. destruct Rs as (r & RR & Rs). rewrite Ms in Rs.
  pose proof (sign_opts_sound w os) as So. destruct (signing_config_of w os) as [c|e]; [|congruence].
  destruct Rs as (r' & x & Sg & Rs). destruct x as [[]|]; [|discriminate]. destruct (write r') as [t'|] eqn:W; [|discriminate].
  assert (t' = t) by congruence. subst t'. clear Rs.
  inversion So as [a' ty' pem' key' oc A' L' K' P' G' E| | | | | | |]; subst. opts. clear So.
  destruct RR as (input & RI & RF). apply read_accepts in RF.
  match type of Sg with sign _ _ ?x _ = _ => set (cfg := x) in * end.
  assert (El : sc_label cfg = l) by (change (sc_label cfg) with (or_else $"sig" (op_label os)); now rewrite Lb).
  destruct (sign_plain r r' cfg se S eq_refl eq_refl eq_refl eq_refl Sg) as (v1 & v2 & E1 & E2 & (base & Ev) & Er).
  assert (Pl : plain l).
  { pose proof W as W0. apply write_iff in W0. destruct W0 as [Sh _]. apply shown_iff in Sh. rewrite Forall_forall in Sh.
    assert (V2 : hvalue_visible v2 = true).
    { assert (In ($"signature", v2) (mr_headers r')).
      { rewrite Er. unfold mr_set_header. cbn [mr_headers]. apply hm_insert_has. }
      exact (Sh _ H). }
    rewrite Ev in V2. unfold signature_text in V2. rewrite El in V2. unfold hvalue_visible in V2. rewrite forallb_app in V2.
    apply andb_true_iff in V2. apply plain_iff. exact (proj1 V2). }
  assert (E3 : no_edge_ws v2).
  { apply E2. rewrite El. intros x z E. apply (nonblank_ws l x); [exact Pl|rewrite E; now left|exact (Wl x z E)]. }
  clear E2. rename E3 into E2.
  rewrite Er in W. pose proof (read_set _ _ _ _ _ _ _ RF E1 E2 W) as RT. rewrite <- Er in RT, W.
  rewrite run_eq, Fv in Rv. cbn [obind] in Rv. rewrite RT in Rv. cbn [obind unwrap] in Rv. rewrite Mv in Rv.
  destruct (verify_opts_sound w ov) as (y & V & Ag). destruct (verification_config_of w ov) as [vc|e]; [|discriminate].
  destruct y as [keys|]; [|contradiction]. destruct Ag as (Vk & _).
  destruct (verify mr_server (as_version HTTP_11 r') vc ve') as [[[[] kid]|]|] eqn:Vf; try discriminate.
  assert (Rp : Forall component_rep (sc_components cfg)).
  { subst cfg. cbn [sc_components]. destruct oc as [cs|]; cbn [or_else]; [|constructor].
    inversion G' as [| |h ws cs' H1 H2 H3]; [constructor|]. subst. apply Forall_forall. intros q I.
    clear - H3 I. induction H3 as [|x c xs cs X _ IH]; [destruct I|]. destruct I as [->|I]; [now apply component_text_iff, comp_from_str_ok in X|now apply IH]. }
  apply sign_new_inv in P'. destruct P' as [s0 P'].
  refine (other_label_rejected mr_client mr_client_laws r r' cfg se S Sg Rp _ mr_server (as_version HTTP_11 r') vc ve' eq_refl eq_refl _ _ _ _ tt kid Vf).
  - discriminate.
  - now rewrite El.
  - now rewrite El.
  - intro m. subst cfg. cbn [sc_signature]. rewrite P'. cbn [sg_sign ring_signer]. unfold raw_http_sign. cbv zeta.
    split; [apply b64_plain|]. split; [apply b64_clean|]. intro H. apply b64_encode_nil in H. now apply Ne in H.
  - intros k I. rewrite Vk in I. inversion V as [a t0 pem key A L K P| | | | | |]; subst; [|destruct I].
    unfold one_key in I. destruct (str_eqb _ _); [|destruct I]. destruct I as [<-|[]]. apply public_key_inv in P. destruct P as [p0 ->].
    apply crate_rejects_colons.
Qed.

(** ** Consequences for the options *)
Lemma no_algorithm (w : world) (o : opt) (stdin out : str) (se : sign_env) (ve : verify_env) :
  op_mode o = MVerify -> op_algorithm o = None -> run w o stdin se ve <> Done (Ok out).
Proof.
  intros M A H. apply run_read in H. destruct H as (r & _ & H). rewrite M in H.
  destruct (verify_opts_sound w o) as (y & V & Ag). destruct (verification_config_of w o) as [c|e]; [|congruence].
  destruct y as [keys|]; [|contradiction]. destruct Ag as (Vk & _). destruct H as (x & Vf & E). destruct x as [[[] kid]|]; [|discriminate].
  apply accepted_signature in Vf. destruct Vf as (cc & sig & _ & (base & k & _ & I & _)). rewrite Vk in I.
  inversion V as [a t pem key A'| | | | | |]; subst; [congruence|]. exact I.
Qed.
Lemma nonce_ignored (w : world) (o : opt) (c : signing_config) : signing_config_of w o = Ok c -> sc_nonce c = None.
Proof. intro H. apply sign_opts_iff in H. inversion H; subst. reflexivity. Qed.
Lemma hmac_unsupported (w : world) (o : opt) :
  (op_algorithm o = Some $"hmac-sha256" -> (forall c, signing_config_of w o <> Ok c) /\ forall c, verification_config_of w o <> Ok c)
  /\ (op_algorithm o = Some $"hmac-sha512" -> (forall c, signing_config_of w o <> Ok c) /\ (forall c, verification_config_of w o <> Ok c)
      /\ forall c, canonicalize_config o <> Ok c).
Proof.
  assert (V : forall a, op_algorithm o = Some a -> (forall t, ~ loads a t) -> forall c, verification_config_of w o <> Ok c).
  { intros a A N c H. destruct (verify_opts_sound w o) as (y & V & Ag). rewrite H in Ag. destruct y as [k|]; [|contradiction].
    inversion V as [a' t pem key A' L| | | | | |]; subst; [|congruence]. apply (N t). congruence. }
  assert (S : forall a, op_algorithm o = Some a -> (forall t, ~ loads a t) -> forall c, signing_config_of w o <> Ok c).
  { intros a A N c H. apply sign_opts_iff in H. inversion H as [a' t pem key oc A' L| | | | | | |]; subst. apply (N t). congruence. }
  split; intro A.
  - split; [apply (S _ A)|apply (V _ A)]; intros t L; inversion L.
  - split; [apply (S _ A); intros t L; inversion L|]. split; [apply (V _ A); intros t L; inversion L|].
    intros c H. apply canon_opts_iff in H. inversion H as [a oc A' I G| | |]; subst. rewrite A in A'. injection A' as <-. cbn in I.
    intuition discriminate.
Qed.
