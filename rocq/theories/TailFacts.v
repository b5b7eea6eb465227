(** Facts for C99. *)
From Verif Require Import SpecTail CutFacts SpecCut PipeFacts RunFacts MockFacts IoFacts TrustFacts RunFacts MockFacts LineFacts GrammarFacts StrFacts VerifyFacts SignFacts RoundTrip OptFacts FlowFacts SpecSign.

Lemma ends_rest (l rest : str) : ends_whole (l ++ rest) -> rest <> [] -> ends_whole rest.
Proof.
  intros (s & E) N. destruct (exists_last N) as (a & c & ->). rewrite app_assoc in E. apply app_inj_tail in E. destruct E as [_ ->]. now exists a.
Qed.
Lemma first_line_parts (s line rest : str) : first_line s line rest -> s = line ++ rest.
Proof. intros [l a _|l _]; [now rewrite <- app_assoc|now rewrite app_nil_r]. Qed.
Lemma first_line_app (s line rest x : str) : first_line s line rest -> rest <> [] \/ ends_whole s -> first_line (s ++ x) line (rest ++ x).
Proof.
  intros [l a N|l N] H; [rewrite <- app_assoc; now constructor|]. destruct H as [H|[s0 ->]]; [contradiction|].
  exfalso. apply N. apply in_or_app. right. now left.
Qed.
Lemma block_nil (hs : list (str * str)) (body : option str) : header_block [] hs body -> hs = [] /\ body = None.
Proof.
  intro B. inversion B as [|? line ? L N|? line ? ? ? ? ? L _ H]; subst; [auto| |]; exfalso.
  - apply first_line_parts in L. destruct line; [now apply N|discriminate].
  - apply first_line_parts in L. destruct (header_of_not_white _ _ _ H) as [_ N]. destruct line; [now apply N|discriminate].
Qed.
Lemma block_longer (s : str) (hs : list (str * str)) (body : option str) (x : str) : header_block s hs body -> forall b, body = Some b ->
  b <> [] \/ ends_whole s -> header_block (s ++ x) hs (Some (b ++ x)).
Proof.
  induction 1 as [|s line r L N W|s line r n v hs body L U H B IH]; intros b E C; [discriminate| |].
  - injection E as <-. apply (block_blank (s ++ x) line); [now apply first_line_app|exact N|exact W].
  - subst body. assert (Nr : r <> []) by (intros ->; apply block_nil in B; destruct B; discriminate).
    apply (block_line (s ++ x) line (r ++ x)); [apply first_line_app; auto|exact U|exact H|]. apply IH; [reflexivity|].
    destruct C as [C|C]; [now left|right]. rewrite (first_line_parts _ _ _ L) in C. now apply (ends_rest line).
Qed.
Lemma line_fun (s l r l' r' : str) : first_line s l r -> first_line s l' r' -> l = l' /\ r = r'.
Proof. intros A B. apply first_line_iff in A, B. rewrite A in B. now injection B. Qed.
Lemma header_fun (l n v n' v' : str) : header_of l n v -> header_of l n' v' -> n = n' /\ v = v'.
Proof.
  intros A B. apply header_of_iff in A, B. destruct A as (a & b & A1 & A2 & A3), B as (a' & b' & B1 & B2 & B3). rewrite A1 in B1. injection B1 as <- <-.
  split; congruence.
Qed.
Lemma block_more (s : str) (hs : list (str * str)) (body : option str) : header_block s hs body -> body = None -> s = [] \/ ends_whole s ->
  forall x l b, header_block (s ++ x) l b <-> exists hx, l = hs ++ hx /\ header_block x hx b.
Proof.
  induction 1 as [|s line r L N W|s line r n v hs body L U H B IH]; intros E C x l b; [|discriminate|].
  - cbn [app]. split; [intro B; exists l; auto|]. intros (hx & -> & B). exact B.
  - assert (Es : ends_whole s). { destruct C as [->|C]; [|exact C]. destruct (header_of_not_white _ _ _ H) as [_ N]. apply first_line_parts in L. destruct line; [now destruct N|discriminate]. }
    assert (Cr : r = [] \/ ends_whole r). { destruct r as [|c r]; [now left|right]. rewrite (first_line_parts _ _ _ L) in Es. apply (ends_rest line); [exact Es|discriminate]. }
    specialize (IH E Cr x). pose proof (first_line_app s line r x L (or_intror Es)) as L'. split.
    + intro K. inversion K as [Z1 Z2 Z3|? line' r' L2 N2 W2|? line' r' n' v' l' ? L2 U2 H2 B2]; subst.
      * exfalso. destruct Es as [s0 ->]. destruct s0; discriminate.
      * exfalso. destruct (line_fun _ _ _ _ _ L' L2) as [<- _]. now destruct (header_of_not_white _ _ _ H).
      * destruct (line_fun _ _ _ _ _ L' L2) as [<- <-]. destruct (header_fun _ _ _ _ _ H H2) as [<- <-].
        apply IH in B2. destruct B2 as (hx & -> & B2). now exists hx.
    + intros (hx & -> & K). apply (block_line (s ++ x) line (r ++ x)); [exact L'|exact U|exact H|]. apply IH. eauto.
Qed.

Lemma block_fun (s : str) (hs hs' : list (str * str)) (b b' : option str) : header_block s hs b -> header_block s hs' b' -> hs = hs' /\ b = b'.
Proof.
  intro B. revert hs' b'. induction B as [|s line r L N W|s line r n v hs body L U H B IH]; intros hs' b' K.
  - apply block_nil in K. destruct K as [-> ->]. auto.
  - inversion K as [Z1 Z2 Z3|? line' r' L2 N2 W2|? line' r' n' v' l' ? L2 U2 H2 B2]; subst.
    + exfalso. apply first_line_parts in L. destruct line; [now apply N|discriminate].
    + now destruct (line_fun _ _ _ _ _ L L2) as [<- <-].
    + exfalso. destruct (line_fun _ _ _ _ _ L L2) as [<- _]. now destruct (header_of_not_white _ _ _ H2).
  - inversion K as [Z1 Z2 Z3|? line' r' L2 N2 W2|? line' r' n' v' l' ? L2 U2 H2 B2]; subst.
    + exfalso. destruct (header_of_not_white _ _ _ H) as [_ N]. apply first_line_parts in L. destruct line; [now apply N|discriminate].
    + exfalso. destruct (line_fun _ _ _ _ _ L L2) as [<- _]. now destruct (header_of_not_white _ _ _ H).
    + destruct (line_fun _ _ _ _ _ L L2) as [<- <-]. destruct (header_fun _ _ _ _ _ H H2) as [<- <-]. destruct (IH _ _ B2) as [-> ->]. auto.
Qed.

(** ** A longer body *)
Lemma frames_longer (t x : str) (r : mock) (b : str) : frames t r -> mr_body r = Some b -> b <> [] \/ ends_whole t -> frames (t ++ x) (longer r x).
Proof.
  intros (line & rest & more & hs & L & U & W & M & B & H) Eb C. exists line, (rest ++ x), more, hs. rewrite Eb in B.
  assert (Nr : rest <> []) by (intros ->; apply block_nil in B; destruct B; discriminate).
  split; [apply first_line_app; auto|]. split; [exact U|]. split; [exact W|]. split; [exact M|]. split; [|exact H].
  cbn [longer mr_body]. rewrite Eb. cbn [option_map]. apply (block_longer rest hs (Some b) x B b eq_refl).
  destruct C as [C|C]; [now left|right]. rewrite (first_line_parts _ _ _ L) in C. now apply (ends_rest line).
Qed.
Lemma run_longer (w : world) (o : opt) (t x : str) (r : mock) (b : str) : op_in_file o = None -> run_request w o t r -> mr_body r = Some b ->
  b <> [] \/ ends_whole t -> forall q, run_request w o (t ++ x) q <-> q = longer r x /\ loggable (w_trace w) (longer r x).
Proof.
  intros Fo (i & I & F & Lg & U) Eb C q. unfold run_input in I. rewrite Fo in I. subst i.
  pose proof (frames_longer t x r b F Eb C) as F'. split.
  - intros (i & I & Fq & Lq & Uq). unfold run_input in I. rewrite Fo in I. subst i.
    pose proof (frames_inv _ _ F' false (w_url w)) as X. pose proof (frames_inv _ _ Fq false (w_url w)) as Y. rewrite X in Y. cbn [andb longer mr_path mr_headers] in Y.
    apply target_url_iff in U, Uq. rewrite U, Uq in Y. cbn in Y. injection Y as Y1 Y2 Y3 Y4 Y5 Y6.
    assert (E : q = longer r x) by (destruct q; cbn in *; unfold longer; subst; reflexivity). subst q. split; [reflexivity|exact Lq].
  - intros [-> Lx]. exists (t ++ x). split; [unfold run_input; now rewrite Fo|]. split; [exact F'|]. split; [exact Lx|exact U].
Qed.
Lemma accepts_honest (q : mock) (keys : str -> list http_verifier) (ve : verify_env) (kid : str) : accepts mr_server q (checks keys) ve kid -> honest_digest q.
Proof.
  assert (Cd : forall d, fst (sr_complete_with_digest mr_server q d) = option_map (dg_digest d) (mr_body q)) by (intros d; cbn; unfold mr_complete_with_digest; now destruct (mr_body q)).
  intros (cc' & sig' & _ & _ & _ & _ & _ & Dg) dv' D'. destruct Dg as [(dv & D & H)|[D _]].
  - change (mr_derive q (CHeader $"digest") = Done (Some dv)) in D. rewrite D in D'. injection D' as <-. destruct (H eq_refl) as (alg & v & H1 & H2). rewrite Cd in H2. eauto.
  - change (mr_derive q (CHeader $"digest") = Done None) in D. congruence.
Qed.
Lemma accepts_longer (r : mock) (x : str) (keys : str -> list http_verifier) (ve : verify_env) (kid : str) : accepts mr_server r (checks keys) ve kid ->
  accepts mr_server (longer r x) (checks keys) ve kid <-> honest_digest (longer r x).
Proof.
  assert (Cd : forall q d, fst (sr_complete_with_digest mr_server q d) = option_map (dg_digest d) (mr_body q)) by (intros q d; cbn; unfold mr_complete_with_digest; now destruct (mr_body q)).
  intros (cc & sig & A1 & A2 & A3 & A4 & A5 & _). split; [apply accepts_honest|].
  - intro H. exists cc, sig. split; [exact A1|]. split; [exact A2|]. split; [exact A3|]. split; [exact A4|]. split; [exact A5|].
    unfold digest_ok, header_value. change (rl_derive (sr_rl mr_server) (longer r x)) with (mr_derive (longer r x)).
    destruct (mr_derive (longer r x) (CHeader $"digest")) as [[dv|]|] eqn:D.
    + left. exists dv. split; [reflexivity|]. intros _. destruct (H dv D) as (alg & v & H1 & H2). exists alg, v. split; [exact H1|]. now rewrite Cd.
    + right. split; [reflexivity|discriminate].
    + exfalso. unfold mr_derive in D. destruct (hm_get _ _) as [z|]; [|discriminate]. destruct (hvalue_visible z); discriminate.
Qed.
Lemma longer_verdict (w : world) (o : opt) (t x : str) (r : mock) (b : str) (se : sign_env) (ve : verify_env) : sys_clock_ok (ve_sys ve) ->
  op_mode o = MVerify -> op_in_file o = None -> run_request w o t r -> mr_body r = Some b -> b <> [] \/ ends_whole t ->
  run w o t se ve = Done (Ok []) ->
  (run w o (t ++ x) se ve = Done (Ok []) <-> loggable (w_trace w) (longer r x) /\ honest_digest (longer r x)).
Proof.
  intros S M Fo RR Eb C Rv. pose proof (run_longer w o t x r b Fo RR Eb C) as RL.
  apply (run_verify w o t se ve _ S M) in Rv. rewrite (run_verify w o (t ++ x) se ve _ S M).
  inversion Rv as [| |q keys kid RQ O A| |]; subst. pose proof (run_request_fun _ _ _ _ _ RR RQ). subst q. clear RQ. split.
  - intro R. inversion R as [| |q keys' kid' RQ O' A'| |]; subst. apply RL in RQ. destruct RQ as [-> Lx]. split; [exact Lx|].
    apply (accepts_honest _ _ _ _ A').
  - intros [Lx H]. apply (verify_accepted w o (t ++ x) ve (longer r x) keys kid); [now apply RL|exact O|]. now apply accepts_longer.
Qed.
(** A right Digest header lets nothing be added, short of a collision. *)
Lemma same_digest (r q : mock) (dv b b' : str) : mr_derive r (CHeader $"digest") = Done (Some dv) -> mr_derive q (CHeader $"digest") = Done (Some dv) ->
  honest_digest r -> honest_digest q -> mr_body r = Some b -> mr_body q = Some b' -> sha256 b' = sha256 b \/ sha512 b' = sha512 b.
Proof.
  intros Dr Dq Hr Hq Br Bq. destruct (Hr dv Dr) as (alg & v & F1 & B1). destruct (Hq dv Dq) as (alg' & v' & F2 & B2). destruct (first_entry_fun _ _ _ _ _ _ F1 F2) as [<- <-].
  rewrite Br in B1. rewrite Bq in B2. cbn [option_map] in B1, B2. destruct F1 as (before & entry & after & _ & _ & _ & (k & z & name & _ & _ & _ & Da & _)).
  assert (Eb : dg_digest alg b' = dg_digest alg b) by congruence. clear - Da Eb. unfold default_digest_provider in Da.
  assert (J : forall x y : str, b64_encode x = b64_encode y -> x = y) by (intros a c H; apply (f_equal b64_decode) in H; rewrite !b64_decode_encode in H; now injection H).
  destruct (str_eqb _ $"SHA-256"); [injection Da as <-; left; now apply J|]. destruct (str_eqb _ $"SHA-512"); [injection Da as <-; right; now apply J|discriminate].
Qed.
Lemma longer_collision (w : world) (o : opt) (t x : str) (r : mock) (b dv : str) (se : sign_env) (ve : verify_env) : sys_clock_ok (ve_sys ve) ->
  op_mode o = MVerify -> op_in_file o = None -> run_request w o t r -> mr_body r = Some b -> b <> [] \/ ends_whole t ->
  mr_derive r (CHeader $"digest") = Done (Some dv) -> run w o t se ve = Done (Ok []) -> run w o (t ++ x) se ve = Done (Ok []) ->
  sha256 (b ++ x) = sha256 b \/ sha512 (b ++ x) = sha512 b.
Proof.
  intros S M Fo RR Eb C D Rv Rx. pose proof (proj1 (longer_verdict w o t x r b se ve S M Fo RR Eb C Rv) Rx) as [_ Hx].
  assert (Hr : honest_digest r).
  { pose proof (longer_verdict w o t [] r b se ve S M Fo RR Eb C Rv) as K. rewrite app_nil_r in K. apply proj1 in K. destruct (K Rv) as [_ K'].
    assert (E : longer r [] = r) by (destruct r; unfold longer; cbn in *; subst; cbn; now rewrite app_nil_r). now rewrite E in K'. }
  apply (same_digest r (longer r x) dv b (b ++ x)); try assumption. unfold longer. cbn [mr_body]. now rewrite Eb.
Qed.

(** ** More header lines *)
Lemma get_value_of (m : header_map) (h : str) : first_value m h = value_of h m.
Proof.
  rewrite first_value_get. induction m as [|[k v] m IH]; [reflexivity|]. cbn [hm_get value_of].
  destruct (list_eq_dec ascii_dec k h) as [->|N]; [now rewrite str_eqb_refl|]. now rewrite (proj2 (str_eqb_neq _ _) N).
Qed.
Lemma value_of_app (h : str) (a b : list (str * str)) : value_of h (a ++ b) = match value_of h a with Some v => Some v | None => value_of h b end.
Proof. induction a as [|[k v] a IH]; [reflexivity|]. cbn [app value_of]. now destruct (list_eq_dec ascii_dec k h). Qed.
Lemma frames_more (t x : str) (r : mock) : frames t r -> mr_body r = None -> ends_whole t -> forall q, frames (t ++ x) q ->
  exists hs, header_block x hs (mr_body q) /\ more_lines r q hs.
Proof.
  intros (line & rest & more & hs & L & U & W & M & B & H) Eb C q (line' & rest' & more' & hs' & L' & U' & W' & M' & B' & H').
  assert (Cr : rest = [] \/ ends_whole rest). { destruct rest as [|c rest]; [now left|right]. rewrite (first_line_parts _ _ _ L) in C. apply (ends_rest line); [exact C|discriminate]. }
  destruct (line_fun _ _ _ _ _ (first_line_app t line rest x L (or_intror C)) L') as [<- <-].
  rewrite Eb in B. apply (block_more rest hs None B eq_refl Cr) in B'. destruct B' as (hx & -> & B'). exists hx. split; [exact B'|].
  apply words_iff in W, W'. rewrite W in W'. injection W' as E1 E2 E3 E4.
  split; [|split; [auto|split; [auto|]]].
  - apply version_parse_iff in E3 || idtac. destruct (mr_version q), (mr_version r); cbn in E3; try reflexivity; discriminate.
  - intro h. rewrite !get_value_of. rewrite (proj2 H'), (proj2 H), rev_app_distr. apply value_of_app.
Qed.
Lemma run_more (w : world) (o : opt) (t x : str) (r : mock) : op_in_file o = None -> run_request w o t r -> mr_body r = None -> ends_whole t ->
  forall q, run_request w o (t ++ x) q ->
  exists hs, header_block x hs (mr_body q) /\ more_lines r q hs /\ target_url (w_url w) (mr_path r) (mr_headers q) (mr_url q).
Proof.
  intros Fo (i & I & F & Lg & U) Eb C q (j & J & Fq & Lq & Uq). unfold run_input in I, J. rewrite Fo in I, J. subst i j.
  destruct (frames_more t x r F Eb C q Fq) as (hs & B & Mr). exists hs. split; [exact B|]. split; [exact Mr|].
  destruct Mr as (_ & _ & P & _). now rewrite <- P.
Qed.
(** Every such block of lines can be added; without a line for Host the URL stays. *)
Lemma run_add (w : world) (o : opt) (t x : str) (r : mock) (hs : list (str * str)) (body : option str) : op_in_file o = None -> run_request w o t r ->
  mr_body r = None -> ends_whole t -> header_block x hs body -> ~ In $"host" (map fst hs) ->
  (w_trace w = true -> forall b, body = Some b -> utf8_text b) ->
  exists q, run_request w o (t ++ x) q /\ mr_body q = body /\ mr_url q = mr_url r /\ more_lines r q hs.
Proof.
  intros Fo (i & I & F & Lg & U) Eb C B Nh Lx. unfold run_input in I. rewrite Fo in I. subst i.
  destruct F as (line & rest & more & h0 & L & Ul & W & M & B0 & H). rewrite Eb in B0.
  assert (Cr : rest = [] \/ ends_whole rest). { destruct rest as [|c rest]; [now left|right]. rewrite (first_line_parts _ _ _ L) in C. apply (ends_rest line); [exact C|discriminate]. }
  set (m := hm_inserts [] (h0 ++ hs)).
  assert (Hm : map_of (h0 ++ hs) m) by now apply hm_inserts_map_of.
  assert (Hv : forall h, first_value m h = match value_of h (rev hs) with Some v => Some v | None => first_value (mr_headers r) h end).
  { intro h. rewrite !get_value_of. rewrite (proj2 Hm), (proj2 H), rev_app_distr. apply value_of_app. }
  assert (Hh : first_value m $"host" = first_value (mr_headers r) $"host").
  { rewrite Hv. assert (X : forall l : list (str * str), ~ In $"host" (map fst l) -> value_of $"host" l = None).
    { induction l as [|[k v] l IH]; [reflexivity|]. cbn [map fst In value_of]. intro N. destruct (list_eq_dec ascii_dec k $"host"); [exfalso; apply N; now left|apply IH; tauto]. }
    rewrite X; [reflexivity|]. rewrite map_rev. intro J. apply Nh. now apply in_rev. }
  set (q := MockReq (mr_version r) (mr_method r) (mr_url r) (mr_path r) m body).
  exists q. split; [|split; [reflexivity|split; [reflexivity|]]].
  - exists (t ++ x). split; [unfold run_input; now rewrite Fo|]. split; [|split].
    + exists line, (rest ++ x), more, (h0 ++ hs). split; [apply first_line_app; auto|]. split; [exact Ul|]. split; [exact W|]. split; [exact M|]. split; [|exact Hm].
      cbn [q mr_body]. apply (block_more rest h0 None B0 eq_refl Cr). eauto.
    + intro T. cbn [q mr_body]. destruct body as [b|]; [now apply Lx|exact I].
    + cbn [q mr_path mr_headers mr_url]. unfold target_url in U |- *. now rewrite Hh.
  - repeat (split; [reflexivity|]). exact Hv.
Qed.
(** What sign writes can be extended so. *)
Lemma signed_ends (w : world) (os ov : opt) (stdin out : str) (r q : mock) (se : sign_env) (ve : verify_env) : sys_clock_ok (se_sys se) -> op_mode os = MSign ->
  run w os stdin se ve = Done (Ok out) -> run_request w os stdin r -> (forall c l, op_label os = Some (c :: l) -> ~ blank c) ->
  op_in_file ov = None -> run_request w ov out q ->
  mr_body q = mr_body r /\ mr_derive q (CHeader $"digest") = mr_derive r (CHeader $"digest") /\ (mr_body r = None \/ mr_body r = Some [] -> ends_whole out).
Proof.
  intros S Ms Rs RR Lb Fv RQ. apply run_read in Rs. destruct Rs as (r0 & RR0 & Rs). pose proof (run_request_fun _ _ _ _ _ RR RR0). subst r0. clear RR0. rewrite Ms in Rs.
  pose proof (sign_opts_sound w os) as So. destruct (signing_config_of w os) as [c|e]; [|congruence].
  destruct Rs as (r' & y & Sg & Rs). destruct y as [[]|]; [|discriminate]. destruct (write r') as [t'|] eqn:W; [|discriminate].
  injection Rs as <-. inversion So as [a' ty' pem' key' oc A' L' K' P' G' E| | | | | | |]; subst c. clear So.
  match type of Sg with sign _ _ ?x _ = _ => set (cfg := x) in * end.
  destruct (sign_plain r r' cfg se S eq_refl eq_refl eq_refl eq_refl Sg) as (v1 & v2 & E1 & E2 & (base0 & Ev) & Er).
  assert (Wl : forall x z, sc_label cfg = x :: z -> ws1 x = false).
  { change (sc_label cfg) with (or_else $"sig" (op_label os)). intros y z E. destruct (op_label os) as [l|] eqn:El; cbn [or_else] in E;
      [|injection E as <- <-; reflexivity]. subst l.
    assert (Pl : plain (y :: z)).
    { pose proof W as W0. apply write_iff in W0. destruct W0 as [Sh _]. apply shown_iff in Sh. rewrite Forall_forall in Sh.
      assert (V2 : hvalue_visible v2 = true).
      { assert (In ($"signature", v2) (mr_headers r')) by (rewrite Er; unfold mr_set_header; cbn [mr_headers]; apply hm_insert_has). exact (Sh _ H). }
      rewrite Ev in V2. unfold signature_text in V2. change (sc_label cfg) with (y :: z) in V2. unfold hvalue_visible in V2. rewrite forallb_app in V2.
      apply andb_prop in V2. apply plain_iff. exact (proj1 V2). }
    apply (nonblank_ws (y :: z) y); [exact Pl|now left|exact (Lb y z eq_refl)]. }
  clear Ev base0. specialize (E2 Wl). destruct RR as (input & RI & F & Lg & U). rewrite Er in W. pose proof (CutFacts.signed_text _ _ _ _ _ F E1 E2 W) as T.
  set (rw := mr_set_header (mr_set_header r $"signature-input" v1) $"signature" v2) in *.
  assert (Bw : mr_body rw = mr_body r) by reflexivity.
  apply write_iff in W. destruct W as [_ ->]. destruct RQ as (j & J & Fq & Lq & Uq). unfold run_input in J. rewrite Fv in J. subst j.
  pose proof (proj2 (read_accepts (w_trace w) (w_url w) (request_text rw) q) (conj Fq (conj Lq Uq))) as Rq.
  assert (Q : mr_body q = mr_body rw /\ mr_headers q = mr_headers rw).
  { rewrite (read_text _ _ _ T) in Rq. destruct (_ && _); [discriminate|]. destruct (derive_url _ _ _) as [[u|]|]; [|discriminate|discriminate]. cbn in Rq. injection Rq as <-. split; reflexivity. }
  destruct Q as [Q1 Q2]. split; [now rewrite Q1|]. split.
  - unfold mr_derive. rewrite Q2. unfold rw, mr_set_header. cbn [mr_headers]. now rewrite !hm_insert_get.
  - rewrite <- Bw. intro K. unfold ends_whole, request_text.
    assert (Z : forall m : header_map, exists s, [ch_lf] ++ List.concat (map header_line m) = s ++ [ch_lf]).
    { intro m. destruct m as [|h m _] using rev_ind; [now exists []|].
      rewrite map_app, concat_app. cbn [map List.concat]. rewrite app_nil_r. destruct h as [n v]. unfold header_line. cbn [fst snd].
      exists ([ch_lf] ++ List.concat (map header_line m) ++ n ++ $": " ++ v). rewrite <- !app_assoc. reflexivity. }
    destruct (Z (mr_headers rw)) as [s Es]. destruct K as [-> | ->].
    + exists (mr_method rw ++ $" " ++ mr_path rw ++ $" HTTP/1.1" ++ s). rewrite app_nil_r, Es, <- !app_assoc. reflexivity.
    + exists (mr_method rw ++ $" " ++ mr_path rw ++ $" HTTP/1.1" ++ [ch_lf] ++ List.concat (map header_line (mr_headers rw))). rewrite <- !app_assoc. reflexivity.
Qed.
Lemma sign_longer (w : world) (os ov : opt) (stdin out x b : str) (r : mock) (se se' : sign_env) (ve ve' : verify_env) :
  op_mode os = MSign -> run w os stdin se ve = Done (Ok out) -> run_request w os stdin r -> mr_body r = Some b ->
  (forall c l, op_label os = Some (c :: l) -> ~ blank c) -> sys_clock_ok (se_sys se) -> sys_clock_ok (ve_sys ve') ->
  op_mode ov = MVerify -> op_in_file ov = None -> run w ov out se' ve' = Done (Ok []) ->
  (run w ov (out ++ x) se' ve' = Done (Ok []) <-> loggable (w_trace w) (longer r x) /\ honest_digest (longer r x)).
Proof.
  intros Ms Rs RR Eb Lb S S' Mv Fv Rv. pose proof Rv as Rv0. apply (run_verify w ov out se' ve' _ S' Mv) in Rv0. inversion Rv0 as [| |q keys kid RQ O A| |]; subst.
  destruct (signed_ends w os ov stdin out r q se ve S Ms Rs RR Lb Fv RQ) as (Bq & Dq & C). rewrite Eb in Bq, C.
  assert (C' : b <> [] \/ ends_whole out) by (destruct b; [right; apply C; now right|left; discriminate]).
  rewrite (longer_verdict w ov out x q b se' ve' S' Mv Fv RQ Bq C' Rv).
  assert (X1 : mr_body (longer q x) = mr_body (longer r x)) by (unfold longer; cbn [mr_body]; now rewrite Bq, Eb).
  assert (X2 : mr_derive (longer q x) (CHeader $"digest") = mr_derive (longer r x) (CHeader $"digest")) by exact Dq.
  unfold loggable, honest_digest. rewrite X1, X2. reflexivity.
Qed.
Lemma sign_more (w : world) (os ov : opt) (stdin out x : str) (r q : mock) (se se' : sign_env) (ve ve' : verify_env) :
  op_mode os = MSign -> run w os stdin se ve = Done (Ok out) -> run_request w os stdin r -> mr_body r = None ->
  (forall c l, op_label os = Some (c :: l) -> ~ blank c) -> sys_clock_ok (se_sys se) -> sys_clock_ok (ve_sys ve') ->
  op_mode ov = MVerify -> op_in_file ov = None -> run_request w ov out q -> run w ov (out ++ x) se' ve' = Done (Ok []) ->
  exists q' hs, run_request w ov (out ++ x) q' /\ header_block x hs (mr_body q') /\ more_lines q q' hs
    /\ target_url (w_url w) (mr_path q) (mr_headers q') (mr_url q') /\ honest_digest q'.
Proof.
  intros Ms Rs RR Eb Lb S S' Mv Fv RQ Rv. destruct (signed_ends w os ov stdin out r q se ve S Ms Rs RR Lb Fv RQ) as (Bq & Dq & C). rewrite Eb in Bq, C.
  apply (run_verify w ov _ se' ve' _ S' Mv) in Rv. inversion Rv as [| |q' keys kid RQ' O A| |]; subst.
  destruct (run_more w ov out x q Fv RQ Bq (C (or_introl eq_refl)) q' RQ') as (hs & B & Mr & T). exists q', hs.
  repeat (split; [assumption|]). exact (accepts_honest _ _ _ _ A).
Qed.

(** ** C100 *)
Lemma view_is (r : mock) (v1 v2 : str) (q : component) :
  signed_view mr_rl r (mr_set_header (mr_set_header r $"signature-input" v1) $"signature" v2) q = mr_derive r q.
Proof.
  destruct q as [d|h]; cbn [signed_view mr_rl rl_derive]; [reflexivity|].
  destruct (list_eq_dec ascii_dec h $"signature") as [->|N1]; [reflexivity|]. destruct (list_eq_dec ascii_dec h $"signature-input") as [->|N2]; [reflexivity|].
  unfold mr_derive, mr_set_header. cbn [mr_headers]. rewrite !hm_insert_get.
  rewrite (proj2 (str_eqb_neq $"signature" h)), (proj2 (str_eqb_neq $"signature-input" h)) by congruence. reflexivity.
Qed.
Lemma no_lf_count (v : str) : no_lf v -> lf_count v = 0%nat.
Proof.
  induction v as [|x v IH]; intro F; [reflexivity|]. unfold lf_count in *. cbn [count_occ]. destruct (ascii_dec x ch_lf) as [E|E]; [exfalso; apply F; now left|].
  apply IH. intro I. apply F. now right.
Qed.
Lemma run_tamper (w : world) (os ov : opt) (stdin out t : str) (r q0 q : mock) (cs : list component) (se se' : sign_env) (ve ve' : verify_env) :
  op_mode os = MSign -> run w os stdin se ve = Done (Ok out) -> run_request w os stdin r -> given os (Some cs) ->
  (forall c l, op_label os = Some (c :: l) -> ~ blank c) -> (forall l, op_label os = Some l -> ~ In "="%char l) ->
  sys_clock_ok (se_sys se) -> sys_clock_ok (ve_sys ve') -> op_mode ov = MVerify -> op_in_file ov = None ->
  run_request w ov out q0 -> run_request w ov t q ->
  first_value (mr_headers q) $"signature" = first_value (mr_headers q0) $"signature" ->
  first_value (mr_headers q) $"signature-input" = first_value (mr_headers q0) $"signature-input" ->
  derived_on_one_line cs r -> derived_on_one_line cs q -> run w ov t se' ve' = Done (Ok []) ->
  (forall p v, In p cs -> mr_derive r p = Done (Some v) -> mr_derive q p = Done (Some v))
  \/ passed_off w os ov (se_rnd se) (seconds (se_sys se)) r q.
Proof.
  intros Ms Rs RR Gc Lb Le S S' Mv Fv RQ0 RQ Hs Hi Or Oq Rv.
  apply run_read in Rs. destruct Rs as (r0 & RR0 & Rs). pose proof (run_request_fun _ _ _ _ _ RR RR0). subst r0. clear RR0. rewrite Ms in Rs.
  pose proof (sign_opts_sound w os) as So. destruct (signing_config_of w os) as [c|e]; [|congruence].
  destruct Rs as (r' & y & Sg & Rs). destruct y as [[]|]; [|discriminate]. destruct (write r') as [t'|] eqn:W; [|discriminate].
  injection Rs as <-. pose proof (sign_given w os c So) as (Rp & _ & _ & _ & Sm & _). pose proof So as So0.
  inversion So as [a' ty' pem' key' oc A' L' K' P' G' E| | | | | | |]; subst c. clear So.
  match type of Sg with sign _ _ ?x _ = _ => set (cfg := x) in * end.
  pose proof (given_fun os _ _ Gc G') as Eo. subst oc.
  destruct (sign_plain r r' cfg se S eq_refl eq_refl eq_refl eq_refl Sg) as (v1 & v2 & E1 & E2 & (base0 & Ev) & Er).
  assert (Pl : plain (sc_label cfg)).
  { pose proof W as W0. apply write_iff in W0. destruct W0 as [Sh _]. apply shown_iff in Sh. rewrite Forall_forall in Sh.
    assert (V2 : hvalue_visible v2 = true).
    { assert (In ($"signature", v2) (mr_headers r')) by (rewrite Er; unfold mr_set_header; cbn [mr_headers]; apply hm_insert_has). exact (Sh _ H). }
    rewrite Ev in V2. unfold signature_text in V2. unfold hvalue_visible in V2. rewrite forallb_app in V2.
    apply andb_prop in V2. apply plain_iff. exact (proj1 V2). }
  assert (Wl : forall x z, sc_label cfg = x :: z -> ws1 x = false).
  { intros y z E. rewrite E in Pl. change (sc_label cfg) with (or_else $"sig" (op_label os)) in E. destruct (op_label os) as [l|] eqn:El; cbn [or_else] in E;
      [|injection E as <- <-; reflexivity]. subst l. apply (nonblank_ws (y :: z) y); [exact Pl|now left|exact (Lb y z eq_refl)]. }
  specialize (E2 Wl).
  assert (Eq : ~ In "="%char (sc_label cfg)).
  { change (sc_label cfg) with (or_else $"sig" (op_label os)). destruct (op_label os) as [l|]; cbn [or_else]; [now apply Le|]. cbn. intuition discriminate. }
  destruct RR as (input & RI & RF). apply read_accepts in RF. rewrite Er in W. pose proof (read_set _ _ _ _ _ _ _ RF E1 E2 W) as RT.
  set (rw := mr_set_header (mr_set_header r $"signature-input" v1) $"signature" v2) in *.
  destruct RQ0 as (j & J & RF0). unfold run_input in J. rewrite Fv in J. subst j. apply read_accepts in RF0. rewrite RT in RF0. injection RF0 as <-.
  apply run_read in Rv. destruct Rv as (q1 & RQ1 & Rv). pose proof (run_request_fun _ _ _ _ _ RQ RQ1). subst q1. clear RQ1. rewrite Mv in Rv.
  destruct (verify_opts_sound w ov) as (y & Vo & Ag). destruct (verification_config_of w ov) as [vc|e]; [|congruence].
  destruct Rv as (x & Vf & Rx). destruct x as [[[] kid]|]; [|discriminate]. destruct y as [keys|]; [|contradiction]. destruct Ag as (Vk & _).
  assert (Cl : forall m, let sig := sg_sign (sc_signature cfg) (se_rnd se) m in plain sig /\ clean_signature sig).
  { intro m. apply sign_new_inv in P'. destruct P' as [s0 ->]. cbn zeta. subst cfg. cbn [sc_signature sg_sign ring_signer]. unfold raw_http_sign.
    split; [apply b64_plain|apply b64_clean]. }
  rewrite !first_value_get in Hs, Hi. cbn [as_version mr_headers] in Hs, Hi.
  assert (Hd : forall h, hm_get (mr_headers q) h = hm_get (mr_headers rw) h -> mr_derive q (CHeader h) = mr_derive rw (CHeader h)) by (intros h E; unfold mr_derive; now rewrite E).
  assert (Lf : forall p v z, In p (sc_components cfg) -> signed_view mr_rl r rw p = Done (Some v) -> mr_derive q p = Done (Some z) -> lf_count v = lf_count z).
  { intros p v z Ip D1 D2. unfold rw in D1. rewrite view_is in D1. destruct p as [d|h].
    - rewrite (no_lf_count v), (no_lf_count z); [reflexivity|exact (Oq d z Ip D2)|exact (Or d v Ip D1)].
    - now rewrite (mock_header_no_lf r h v D1), (mock_header_no_lf q h z D2). }
  rewrite Er in Sg. fold rw in Sg.
  destruct (tamper_values mr_client mr_client_laws r rw cfg se S Sg Rp ltac:(discriminate) mr_server mr_server_laws q vc ve' (Hd _ Hi) (Hd _ Hs) tt kid Eq Pl Cl Lf Vf) as [H|H].
  - left. intros p v Ip D. apply (H p v Ip). change (signed_view mr_rl r rw p = Done (Some v)). unfold rw. now rewrite view_is.
  - right. destruct H as (m1 & m2 & k & (Nm & cs' & Cv & B1 & B2) & Hk & Hv). unfold covered in Cv. rewrite Sm in Cv. subst cs'.
    exists cfg, keys, k, m1, m2. split; [exact So0|]. split; [exact Vo|]. split; [now rewrite <- Vk|]. split; [|auto].
    revert B1. apply signature_base_ext. intros p _. apply (view_is r v1 v2).
Qed.
Lemma value_of_none (h : str) (l : list (str * str)) : ~ In h (map fst l) -> value_of h l = None.
Proof.
  induction l as [|[k v] l IH]; [reflexivity|]. cbn [map fst In value_of]. intro N. destruct (list_eq_dec ascii_dec k h); [exfalso; apply N; now left|apply IH; tauto].
Qed.
Lemma more_covered (w : world) (os ov : opt) (stdin out x : str) (r q : mock) (cs : list component) (hs : list (str * str)) (se se' : sign_env) (ve ve' : verify_env) :
  op_mode os = MSign -> run w os stdin se ve = Done (Ok out) -> run_request w os stdin r -> mr_body r = None -> given os (Some cs) ->
  (forall c l, op_label os = Some (c :: l) -> ~ blank c) -> (forall l, op_label os = Some l -> ~ In "="%char l) ->
  sys_clock_ok (se_sys se) -> sys_clock_ok (ve_sys ve') -> op_mode ov = MVerify -> op_in_file ov = None ->
  (exists q0, run_request w ov out q0) -> run_request w ov (out ++ x) q -> header_block x hs (mr_body q) ->
  ~ In $"signature" (map fst hs) -> ~ In $"signature-input" (map fst hs) ->
  derived_on_one_line cs r -> derived_on_one_line cs q -> run w ov (out ++ x) se' ve' = Done (Ok []) ->
  (forall p v, In p cs -> mr_derive r p = Done (Some v) -> mr_derive q p = Done (Some v))
  \/ passed_off w os ov (se_rnd se) (seconds (se_sys se)) r q.
Proof.
  intros Ms Rs RR Eb Gc Lb Le S S' Mv Fv (q0 & RQ0) RQ B N1 N2 Or Oq Rv.
  destruct (signed_ends w os ov stdin out r q0 se ve S Ms Rs RR Lb Fv RQ0) as (Bq & _ & C). rewrite Eb in Bq, C.
  destruct (run_more w ov out x q0 Fv RQ0 Bq (C (or_introl eq_refl)) q RQ) as (hs' & B' & (_ & _ & _ & Hv) & _).
  assert (E : hs' = hs).
  { exact (proj1 (block_fun x hs' hs _ _ B' B)). }
  subst hs'. apply (run_tamper w os ov stdin out (out ++ x) r q0 q cs se se' ve ve'); try assumption.
  - rewrite Hv, value_of_none; [reflexivity|]. rewrite map_rev. intro J. apply N1. now apply in_rev.
  - rewrite Hv, value_of_none; [reflexivity|]. rewrite map_rev. intro J. apply N2. now apply in_rev.
Qed.
Lemma run_tamper_body (w : world) (os ov : opt) (stdin out t : str) (r q0 q : mock) (cs : list component) (b dv : str) (se se' : sign_env) (ve ve' : verify_env) :
  op_mode os = MSign -> run w os stdin se ve = Done (Ok out) -> run_request w os stdin r -> given os (Some cs) ->
  (forall c l, op_label os = Some (c :: l) -> ~ blank c) -> (forall l, op_label os = Some l -> ~ In "="%char l) ->
  sys_clock_ok (se_sys se) -> sys_clock_ok (ve_sys ve') -> op_mode ov = MVerify -> op_in_file ov = None ->
  run_request w ov out q0 -> run_request w ov t q ->
  first_value (mr_headers q) $"signature" = first_value (mr_headers q0) $"signature" ->
  first_value (mr_headers q) $"signature-input" = first_value (mr_headers q0) $"signature-input" ->
  derived_on_one_line cs r -> derived_on_one_line cs q -> In (CHeader $"digest") cs ->
  mr_body r = Some b -> mr_derive r (CHeader $"digest") = Done (Some dv) -> honest_digest r -> run w ov t se' ve' = Done (Ok []) ->
  (exists b', mr_body q = Some b' /\ (b' = b \/ b' <> b /\ (sha256 b' = sha256 b \/ sha512 b' = sha512 b)))
  \/ passed_off w os ov (se_rnd se) (seconds (se_sys se)) r q.
Proof.
  intros Ms Rs RR Gc Lb Le S S' Mv Fv RQ0 RQ Hs Hi Or Oq Ic Br Dr Hr Rv.
  destruct (run_tamper w os ov stdin out t r q0 q cs se se' ve ve' Ms Rs RR Gc Lb Le S S' Mv Fv RQ0 RQ Hs Hi Or Oq Rv) as [H|H]; [left|right; exact H].
  pose proof (H _ _ Ic Dr) as Dq. apply (run_verify w ov _ se' ve' _ S' Mv) in Rv. inversion Rv as [| |q' keys kid RQ' O A| |]; subst.
  pose proof (run_request_fun _ _ _ _ _ RQ RQ'). subst q'. pose proof (accepts_honest _ _ _ _ A) as Hq.
  destruct (Hq dv Dq) as (alg & v & _ & X). destruct (mr_body q) as [b'|] eqn:Bq; [|discriminate]. exists b'. split; [reflexivity|].
  destruct (list_eq_dec ascii_dec b' b) as [E|E]; [now left|right]. split; [exact E|]. exact (same_digest r q dv b b' Dr Dq Hr Hq Br Bq).
Qed.
