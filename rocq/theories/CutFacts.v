(** Facts about requests cut short. *)
From Verif Require Export SpecCut.
From Verif Require Import PipeFacts RunFacts MockFacts IoFacts TrustFacts.
From Coq Require Import Lia.

Lemma get_not_in (m : header_map) (n : str) : ~ In n (map fst m) <-> hm_get m n = None.
Proof.
  induction m as [|[k w] m IH]; cbn [hm_get map fst In]; [tauto|]. destruct (str_eqb k n) eqn:E.
  - apply str_eqb_eq in E. subst. split; [intro H; exfalso; apply H; now left|discriminate].
  - apply str_eqb_neq in E. rewrite <- IH. tauto.
Qed.
Lemma get_app (a b : header_map) (n : str) : hm_get (a ++ b) n = match hm_get a n with Some v => Some v | None => hm_get b n end.
Proof. induction a as [|[k w] a IH]; [reflexivity|]. cbn [app hm_get]. now destruct (str_eqb k n). Qed.
Lemma hvalue_parse_same (s v : str) : hvalue_parse s = Some v -> v = s.
Proof. unfold hvalue_parse. destruct (hvalue_ok s); [|discriminate]. now intro H; injection H as <-. Qed.

Lemma read_open (s l r : str) : ~ In ch_lf s -> read_line s = Some (l, r) -> l = s /\ r = [].
Proof.
  intros N H. apply read_line_iff in H. destruct H as [H _]. inversion H as [a b Na E1 E2|a Na E1 E2]; subst; [|now split].
  exfalso. apply N. apply in_or_app. right. now left.
Qed.
(** A header line that ends too soon. *)
Lemma cut_line (f : nat) (n v s x : str) (acc q : header_map) (b : bool) (rest : str) : header_name n -> plain_value v -> ~ In n (map fst acc) ->
  header_line (n, v) = s ++ x -> x <> [] -> read_headers f s acc = Some (q, b, rest) ->
  b = false /\ (q = acc \/ exists v', q = acc ++ [(n, v')]).
Proof.
  intros Hn Hv Na E X. apply header_name_ok in Hn. destruct (hname_ascii n Hn) as (An & Fn & Nn).
  destruct (plain_edges v Hv) as (Vv & Ev). destruct (value_ascii v Vv) as (Av & Lv & Ov).
  assert (Ls : ~ In ch_lf s /\ exists y, (n ++ $": " ++ v) = s ++ y).
  { destruct (exists_last X) as (y & c & ->). unfold header_line in E. cbn [fst snd] in E. rewrite !app_assoc in E. apply app_inj_tail in E. destruct E as [E _].
    rewrite <- !app_assoc in E. split; [|now exists y]. intro I. assert (J : In ch_lf (n ++ $": " ++ v)) by (rewrite E; apply in_or_app; now left).
    apply in_app_or in J. destruct J as [J|J]; [rewrite Forall_forall in Fn; now apply Fn in J|]. cbn [s2b list_ascii_of_string app In] in J. destruct J as [J|[J|J]]; [discriminate|discriminate|contradiction]. }
  destruct Ls as [Ls (y & Ey)]. destruct f as [|f]; [discriminate|]. cbn [read_headers]. destruct (read_line s) as [[l r]|] eqn:R; [|discriminate].
  apply read_open in R; [|exact Ls]. destruct R as [-> ->]. destruct s as [|c s]; [intro H; injection H as <- <- <-; split; [reflexivity|now left]|].
  assert (Asc : all_ascii (c :: s)).
  { assert (F : all_ascii (n ++ $": " ++ v)) by (apply Forall_app; split; [exact An|cbn [s2b list_ascii_of_string app]; repeat (constructor; [reflexivity|]); exact Av]).
    rewrite Ey in F. now apply Forall_app in F. }
  assert (T : trim (c :: s) <> []).
  { destruct n as [|c0 n]; [now contradiction Nn|]. cbn [app] in Ey. injection Ey as <- _. apply trim_nonblank with (c := c0); [exact Asc|now left|]. inversion Fn; tauto. }
  destruct (trim (c :: s)) as [|z tr]; [now contradiction T|]. clear T z tr. destruct (split_once ":" (c :: s)) as [[a p]|] eqn:Sp; [|discriminate].
  apply split_once_spec in Sp. destruct Sp as [Sp Sn].
  assert (Ea : a = n).
  { rewrite Sp in Ey. rewrite <- app_assoc in Ey. clear - Ey Sn Fn. revert a Ey Sn. induction n as [|d n IH]; intros a Ey Sn; destruct a as [|e a]; [reflexivity| | |].
    - cbn [s2b list_ascii_of_string app] in Ey. injection Ey as <- _. exfalso. apply Sn. now left.
    - cbn [app] in Ey. injection Ey as -> _. inversion Fn as [|? ? (_ & C & _) _]. now contradiction C.
    - cbn [app] in Ey. injection Ey as -> Ey. f_equal. inversion Fn; subst. apply IH; [assumption|exact Ey|]. intro I. apply Sn. now right. }
  subst a. assert (Tn : trim n = n). { apply trim_id; [exact An|]. apply no_ws_edges. revert Fn. apply Forall_impl. tauto. }
  rewrite Tn, (hname_parse_ok n Hn). destruct (hvalue_parse (trim p)) as [v'|]; [|discriminate]. destruct f as [|f]; [discriminate|]. cbn [read_headers].
  change (read_line []) with (Some (@nil ascii, @nil ascii)). cbv iota beta. intro H. injection H as <- <- <-. split; [reflexivity|]. right. exists v'. now apply hm_insert_new.
Qed.
(** A block of header lines that ends too soon. *)
Lemma cut_lines (hs : header_map) : forall (acc : header_map) (f : nat) (s x tail : str) (q : header_map) (b : bool) (rest : str),
  Forall (fun h => header_name (fst h) /\ plain_value (snd h)) hs -> NoDup (map fst (acc ++ hs)) ->
  List.concat (map header_line hs) ++ tail = s ++ x -> read_headers f s acc = Some (q, b, rest) ->
  (exists s' f', s = List.concat (map header_line hs) ++ s' /\ tail = s' ++ x /\ read_headers f' s' (acc ++ hs) = Some (q, b, rest))
  \/ b = false /\ exists h1 n v h2, hs = h1 ++ (n, v) :: h2 /\ (q = acc ++ h1 \/ exists v', q = acc ++ h1 ++ [(n, v')]).
Proof.
  induction hs as [|[n v] hs IH]; intros acc f s x tail q b rest F D E R.
  - left. exists s, f. cbn [map List.concat app] in *. rewrite app_nil_r. auto.
  - inversion F as [|? ? [Hn Hv] F']; subst. cbn [fst snd] in Hn, Hv. cbn [map List.concat] in E. rewrite <- app_assoc in E.
    assert (Na : ~ In n (map fst acc)). { rewrite map_app in D. cbn [map fst] in D. apply NoDup_remove_2 in D. intro I. apply D. apply in_or_app. now left. }
    symmetry in E. apply app_eq_app in E. destruct E as (m & [[E1 E2]|[E1 E2]]).
    + subst s. destruct f as [|f]; [discriminate|]. rewrite read_header_line in R by assumption.
      specialize (IH (acc ++ [(n, v)]) f m x tail q b rest F'). rewrite <- app_assoc in IH. specialize (IH D E2 R).
      destruct IH as [(s' & f' & -> & T & R')|(B & h1 & n' & v' & h2 & -> & H)].
      * left. exists s', f'. cbn [map List.concat]. rewrite <- app_assoc. split; [reflexivity|]. split; [exact T|exact R'].
      * right. split; [exact B|]. exists ((n, v) :: h1), n', v', h2. split; [reflexivity|]. destruct H as [->|(z & ->)]; [left|right; exists z]; now rewrite <- !app_assoc.
    + destruct m as [|c m].
      * rewrite app_nil_r in E1. cbn [app] in E2. subst x. rewrite <- E1 in R. destruct f as [|f]; [discriminate|]. rewrite <- (app_nil_r (header_line (n, v))) in R.
        rewrite read_header_line in R by assumption. specialize (IH (acc ++ [(n, v)]) f [] (List.concat (map header_line hs) ++ tail) tail q b rest F').
        rewrite <- app_assoc in IH. specialize (IH D eq_refl R). destruct IH as [(s' & f' & Z & T & R')|(B & h1 & n' & v' & h2 & -> & H)].
        -- left. exists s', f'. cbn [map List.concat]. rewrite <- app_assoc, <- Z, app_nil_r. split; [now symmetry|]. split; [exact T|exact R'].
        -- right. split; [exact B|]. exists ((n, v) :: h1), n', v', h2. split; [reflexivity|]. destruct H as [->|(z & ->)]; [left|right; exists z]; now rewrite <- !app_assoc.
      * right. destruct (cut_line f n v s (c :: m) acc q b rest Hn Hv Na E1 ltac:(discriminate) R) as [B H]. split; [exact B|]. exists [], n, v, hs. split; [reflexivity|].
        cbn [app]. rewrite app_nil_r. exact H.
Qed.

Definition head_line (r : mock) : str := mr_method r ++ $" " ++ mr_path r ++ $" HTTP/1.1".
Lemma head_facts (r : mock) : text_request r -> ~ In ch_lf (head_line r) /\ utf8_text (head_line r)
  /\ split_ascii_whitespace (head_line r ++ [ch_lf]) = [mr_method r; mr_path r; $"HTTP/1.1"] /\ method_parse (mr_method r) = Some (mr_method r).
Proof.
  intros ((Mn & Mt) & (Pn & Pu & Pb) & D & F).
  assert (Mt' : forallb is_tchar (mr_method r) = true). { apply forallb_forall. intros c I. rewrite Forall_forall in Mt. now apply tchar_iff, Mt. }
  assert (Mw : Forall (fun x => is_ascii_ws x = false) (mr_method r)).
  { apply Forall_forall. intros c I. apply tchar_not_ws. now apply (forallb_In _ _ _ Mt'). }
  assert (Ma : all_ascii (mr_method r)). { apply Forall_forall. intros c I. apply tchar_not_ws. now apply (forallb_In _ _ _ Mt'). }
  assert (Pw : Forall (fun x => is_ascii_ws x = false) (mr_path r)).
  { revert Pb. apply Forall_impl. intros c N. destruct (is_ascii_ws c) eqn:E; [|reflexivity]. apply blank_iff in E. contradiction. }
  unfold head_line. split; [|split; [|split]].
  - assert (X : Forall (fun c => is_ascii_ws c = false \/ c = " "%char) (mr_method r ++ $" " ++ mr_path r ++ $" HTTP/1.1")).
    { apply Forall_app. split; [revert Mw; apply Forall_impl; tauto|]. apply Forall_app. split; [repeat (constructor; [tauto|]); constructor|].
      apply Forall_app. split; [revert Pw; apply Forall_impl; tauto|]. cbn [s2b list_ascii_of_string]. repeat (constructor; [tauto || (left; reflexivity)|]). constructor. }
    intro I. rewrite Forall_forall in X. apply X in I. destruct I; discriminate.
  - apply utf8_app; [now apply utf8_ascii|]. apply utf8_app; [apply utf8_ascii; repeat constructor|]. apply utf8_app; [exact Pu|apply utf8_ascii; repeat constructor].
  - pose proof (three_words (mr_method r) (mr_path r) $"HTTP/1.1" Mn Pn) as W. rewrite <- !app_assoc. apply W; try assumption; [discriminate|repeat constructor].
  - unfold method_parse, method_ok. rewrite Mt'. destruct (mr_method r); [now contradiction Mn|reflexivity].
Qed.
(** The beginning of the text of a request whose last header is Signature, if it has that header at all. *)
Lemma cut_read (trace : bool) (up : url_parser) (r q : mock) (hs : header_map) (v s x : str) : text_request r ->
  mr_headers r = hs ++ [($"signature", v)] -> request_text r = s ++ x -> from_reader trace up s = Done (Some q) -> hm_get (mr_headers q) $"signature" <> None ->
  mr_method q = mr_method r /\ mr_path q = mr_path r /\ (exists v', mr_headers q = hs ++ [($"signature", v')])
  /\ (mr_body q = None \/ exists b y, mr_body r = Some (b ++ y) /\ mr_body q = Some b).
Proof.
  intros T Hs E R G. destruct (head_facts r T) as (Hl & Hu & Hw & Hm). destruct T as (_ & _ & D & F).
  assert (Sg : hm_get hs $"signature" = None).
  { apply get_not_in. rewrite Hs, map_app in D. cbn [map fst] in D. apply NoDup_remove_2 in D. now rewrite app_nil_r in D. }
  assert (E' : s ++ x = (head_line r ++ [ch_lf]) ++ List.concat (map header_line (mr_headers r)) ++ match mr_body r with Some b => ch_lf :: b | None => [] end).
  { rewrite <- E. unfold request_text, head_line. now rewrite <- !app_assoc. }
  clear E. apply app_eq_app in E'. destruct E' as (m & [[E1 E2]|[E1 E2]]).
  - subst s. rewrite <- app_assoc in R. cbn [app] in R. unfold from_reader in R. rewrite read_line_lf in R by assumption. rewrite Hw, Hm in R.
    change (version_parse $"HTTP/1.1") with (Some HTTP_11) in R. cbv iota in R.
    destruct (read_headers _ m []) as [[[qh b] rest]|] eqn:H; [|discriminate].
    pose proof (cut_lines (mr_headers r) [] _ m x _ qh b rest F D E2 H) as C.
    destruct (trace && b && negb (utf8_valid rest)); [discriminate|]. destruct (derive_url up (mr_path r) qh) as [[u|]|]; cbn [obind] in R; try discriminate.
    injection R as <-. cbn [mr_method mr_path mr_headers mr_body] in *. split; [reflexivity|]. split; [reflexivity|].
    destruct C as [(s' & f' & _ & Et & H')|(-> & h1 & n & w & h2 & Eh & C)].
    + cbn [app] in H'. destruct f' as [|f']; [discriminate|]. destruct s' as [|c s'].
      * cbn [read_headers] in H'. change (read_line []) with (Some (@nil ascii, @nil ascii)) in H'. cbv iota beta in H'. injection H' as <- <- <-. split; [now exists v|now left].
      * destruct (mr_body r) as [body|]; [|discriminate]. cbn [app] in Et. injection Et as <- Et.
        assert (L : read_line (ch_lf :: s') = Some ([ch_lf], s')) by exact (read_line_lf [] s' (fun i => i) (utf8_ascii [] (Forall_nil _))).
        cbn [read_headers] in H'. rewrite L in H'. change (trim [ch_lf]) with (@nil ascii) in H'. cbv iota in H'. injection H' as <- <- <-. split; [now exists v|].
        right. exists s', x. split; [now rewrite Et|reflexivity].
    + split; [|now left]. cbn [app] in C. rewrite Hs in Eh.
      (* the last header *)
      assert (L : h2 = [] /\ h1 = hs /\ n = $"signature" \/ exists h3, hs = h1 ++ (n, w) :: h3).
      { destruct h2 as [|z h2] using rev_ind.
        - apply app_inj_tail in Eh. destruct Eh as [-> Eh]. injection Eh as <- _. now left.
        - right. exists h2. change (h1 ++ (n, w) :: h2 ++ [z]) with (h1 ++ ((n, w) :: h2) ++ [z]) in Eh. rewrite app_assoc in Eh. apply app_inj_tail in Eh. now destruct Eh. }
      assert (N1 : hm_get h1 $"signature" = None).
      { destruct L as [(_ & -> & _)|(h3 & Eq)]; [exact Sg|]. rewrite Eq, get_app in Sg. now destruct (hm_get h1 $"signature"). }
      destruct C as [->|(v' & ->)]; [now contradiction G|]. destruct L as [(_ & -> & ->)|(h3 & Eq)]; [now exists v'|].
      exfalso. apply G. rewrite get_app, N1. cbn [hm_get]. rewrite Eq, get_app, N1 in Sg. cbn [hm_get] in Sg. now destruct (str_eqb n $"signature").
  - (* not even the first line *)
    exfalso. apply G. assert (N : s = head_line r ++ [ch_lf] \/ ~ In ch_lf s).
    { destruct m as [|c m] using rev_ind; [left; now rewrite app_nil_r in E1|]. right. rewrite app_assoc in E1. apply app_inj_tail in E1. destruct E1 as [E1 _].
      intro I. apply Hl. rewrite E1. apply in_or_app. now left. }
    unfold from_reader in R. destruct (read_line s) as [[l rest]|] eqn:L; [|discriminate].
    assert (Er : rest = []).
    { destruct N as [->|N]; [rewrite read_line_lf in L by assumption; now injection L|]. now apply read_open in L. }
    subst rest. destruct (split_ascii_whitespace l) as [|m1 [|path [|v1 ws]]]; try discriminate. destruct (method_parse m1); [|discriminate]. destruct (version_parse v1); [|discriminate].
    cbn [List.length read_headers] in R. change (read_line []) with (Some (@nil ascii, @nil ascii)) in R. cbv iota beta in R. rewrite Bool.andb_false_r in R. cbn [andb] in R.
    destruct (derive_url up path []) as [[u|]|]; cbn [obind] in R; try discriminate. injection R as <-. reflexivity.
Qed.

(** What sign prints is a request that survives. *)
Lemma signed_text (s t : str) (r : mock) (v1 v2 : str) : frames s r -> no_edge_ws v1 -> no_edge_ws v2 ->
  let r' := mr_set_header (mr_set_header r $"signature-input" v1) $"signature" v2 in write r' = Some t -> text_request r'.
Proof.
  intros F E1 E2 r' W. apply write_iff in W. destruct W as [Sh _]. apply shown_iff in Sh.
  apply frames_iff in F. unfold from_reader in F. destruct (read_line s) as [[line rest]|] eqn:RL; [|discriminate].
  apply read_line_ok in RL. destruct RL as [_ Ut].
  pose proof (words_of line [] Ut (Forall_nil _)) as Wd. fold (split_ascii_whitespace line) in Wd.
  destruct (split_ascii_whitespace line) as [|m [|path [|v ws]]]; try discriminate.
  destruct (method_parse m) as [m'|] eqn:M; [|discriminate]. destruct (version_parse v) as [ver|]; [|discriminate].
  destruct (read_headers _ rest []) as [[[hs b] body]|] eqn:H; [|discriminate]. cbn [andb derive_url obind] in F. injection F as F.
  apply read_headers_inv in H; [|constructor|constructor]. destruct H as [Hd Hf].
  inversion Wd as [|? ? (M1 & _ & _) W1]; subst. inversion W1 as [|? ? (P1 & P2 & P3) _]; subst.
  unfold method_parse in M. destruct (method_ok m) eqn:Mo; [|discriminate]. injection M as <-. unfold method_ok in Mo. apply andb_prop in Mo. destruct Mo as [_ Mo].
  subst r'. rewrite <- F in *. unfold mr_set_header in *. cbn [mr_method mr_path mr_headers mr_version mr_url mr_body] in *.
  split; [|split; [|split]]; cbn [mr_method mr_path mr_headers].
  - split; [exact M1|]. apply Forall_forall. intros c I. apply tchar_iff. now apply (forallb_In _ _ _ Mo).
  - split; [exact P1|]. split; [exact P2|]. revert P3. apply Forall_impl. intros c C B. apply blank_iff in B. congruence.
  - now apply hm_insert_nodup, hm_insert_nodup.
  - apply Forall_forall. intros h I. rewrite Forall_forall in Hf, Sh.
    assert (X : header_name (fst h) /\ no_edge_ws (snd h)).
    { apply hm_insert_in in I. destruct I as [->|I]; [split; [apply header_name_ok; reflexivity|exact E2]|].
      apply hm_insert_in in I. destruct I as [->|I]; [split; [apply header_name_ok; reflexivity|exact E1]|]. now apply Hf. }
    destruct X as [X1 X2]. split; [exact X1|]. apply edges_plain; [now apply Sh|exact X2].
Qed.

(** Signing, losing the end of the output, and verifying. *)
Lemma sign_cut (w : world) (os ov : opt) (stdin out s x : str) (r : mock) (se se' : sign_env) (ve ve' : verify_env) :
  op_mode os = MSign -> run w os stdin se ve = Done (Ok out) -> run_request w os stdin r -> first_value (mr_headers r) $"signature" = None ->
  (forall c l, op_label os = Some (c :: l) -> ~ blank c) -> sys_clock_ok (se_sys se) -> sys_clock_ok (ve_sys ve') ->
  op_mode ov = MVerify -> op_in_file ov = None -> out = s ++ x -> run w ov s se' ve' = Done (Ok []) ->
  exists q, run_request w ov s q /\ cut_request r q /\ honest_digest q.
Proof.
  intros Ms Rs RR Ns Lb S S' Mv Fv -> Rv.
  apply run_read in Rs. destruct Rs as (r0 & RR0 & Rs). pose proof (run_request_fun _ _ _ _ _ RR RR0). subst r0. clear RR0. rewrite Ms in Rs.
  pose proof (sign_opts_sound w os) as So. destruct (signing_config_of w os) as [c|e]; [|congruence].
  destruct Rs as (r' & y & Sg & Rs). destruct y as [[]|]; [|discriminate]. destruct (write r') as [t'|] eqn:W; [|discriminate].
  injection Rs as <-. inversion So as [a' ty' pem' key' oc A' L' K' P' G' E| | | | | | |]; subst c. clear So.
  match type of Sg with sign _ _ ?x _ = _ => set (cfg := x) in * end.
  destruct (sign_plain r r' cfg se S eq_refl eq_refl eq_refl eq_refl Sg) as (v1 & v2 & E1 & E2 & (base0 & Ev) & Er).
  assert (Wl : forall x z, sc_label cfg = x :: z -> ws1 x = false).
  { change (sc_label cfg) with (or_else $"sig" (op_label os)). intros y z E. destruct (op_label os) as [l|] eqn:El; cbn [or_else] in E;
      [|injection E as <- <-; reflexivity]. subst l.
    assert (Pl : plain (y :: z)).
    { pose proof W as W0. apply write_iff in W0. destruct W0 as [Sh _]. apply shown_iff in Sh. rewrite Forall_forall in Sh.
      assert (V2 : hvalue_visible v2 = true).
      { assert (In ($"signature", v2) (mr_headers r')) by (rewrite Er; unfold mr_set_header; cbn [mr_headers]; apply hm_insert_has). exact (Sh _ H). }
      rewrite Ev in V2. unfold signature_text in V2. change (sc_label cfg) with (y :: z) in V2. unfold hvalue_visible in V2. rewrite forallb_app in V2.
      apply andb_prop in V2. apply plain_iff. exact (proj1 V2). }
    apply (nonblank_ws (y :: z) y); [exact Pl|now left|exact (Lb y z eq_refl)]. }
  clear Ev base0. specialize (E2 Wl). destruct RR as (input & RI & F & Lg & U). rewrite Er in W. pose proof (signed_text _ _ _ _ _ F E1 E2 W) as T.
  apply (run_verify w ov s se' ve' _ S' Mv) in Rv. inversion Rv as [| |q keys kid RQ O A| |]; subst. exists q. split; [exact RQ|].
  destruct RQ as (input' & RI' & Fq & Lq & Uq). unfold run_input in RI'. rewrite Fv in RI'. subst input'.
  destruct A as (cc & sig & (inp & sigv & _ & _ & Hv & _) & _ & _ & _ & _ & Dg).
  assert (G : hm_get (mr_headers q) $"signature" <> None).
  { intro N. unfold header_value in Hv. cbn [sr_rl mr_server rl_derive mr_rl mr_derive] in Hv. unfold mr_derive in Hv. rewrite N in Hv. discriminate. }
  apply write_iff in W. destruct W as [_ W].
  set (hs := hm_insert (mr_headers r) $"signature-input" v1).
  assert (Hh : mr_headers (mr_set_header (mr_set_header r $"signature-input" v1) $"signature" v2) = hs ++ [($"signature", v2)]).
  { cbn [mr_set_header mr_headers]. fold hs. apply hm_insert_new. apply get_not_in. unfold hs. rewrite hm_insert_get. rewrite first_value_get in Ns. exact Ns. }
  pose proof (proj2 (read_accepts (w_trace w) (w_url w) s q) (conj Fq (conj Lq Uq))) as Rq.
  destruct (cut_read _ _ _ q hs v2 s x T Hh (eq_sym W) Rq G) as (C1 & C2 & (v' & C3) & C4). cbn [mr_set_header mr_method mr_path mr_body] in C1, C2, C4.
  assert (Hg : forall h, h <> $"signature" -> h <> $"signature-input" -> hm_get (mr_headers q) h = hm_get (mr_headers r) h).
  { intros h N1 N2. rewrite C3, get_app. unfold hs. rewrite hm_insert_get. cbn [hm_get].
    destruct (str_eqb $"signature" h) eqn:Q1; [apply str_eqb_eq in Q1; congruence|]. destruct (str_eqb $"signature-input" h) eqn:Q2; [apply str_eqb_eq in Q2; congruence|].
    now destruct (hm_get (mr_headers r) h). }
  split; [|].
  - split; [exact C1|]. split; [exact C2|]. split; [|split; [|exact C4]].
    + apply target_url_iff in U, Uq. unfold derive_url in U, Uq. rewrite C2, (Hg h_host) in Uq by discriminate. rewrite U in Uq. now injection Uq.
    + intros h N1 N2. rewrite !first_value_get. now apply Hg.
  - assert (Cd : forall d, fst (sr_complete_with_digest mr_server q d) = option_map (dg_digest d) (mr_body q)) by (intro d; cbn; unfold mr_complete_with_digest; now destruct (mr_body q)).
    intros dv' D'. destruct Dg as [(dv & D & H)|[D _]].
    + change (mr_derive q (CHeader $"digest") = Done (Some dv)) in D. rewrite D in D'. injection D' as <-. destruct (H eq_refl) as (alg & v & H1 & H2). rewrite Cd in H2. eauto.
    + change (mr_derive q (CHeader $"digest") = Done None) in D. congruence.
Qed.
(** With a right Digest header, the body is all there, or two bodies have one digest. *)
Lemma sign_cut_digest (w : world) (os ov : opt) (stdin out s x : str) (r : mock) (dv : str) (se se' : sign_env) (ve ve' : verify_env) :
  op_mode os = MSign -> run w os stdin se ve = Done (Ok out) -> run_request w os stdin r -> first_value (mr_headers r) $"signature" = None ->
  mr_derive r (CHeader $"digest") = Done (Some dv) -> honest_digest r ->
  (forall c l, op_label os = Some (c :: l) -> ~ blank c) -> sys_clock_ok (se_sys se) -> sys_clock_ok (ve_sys ve') ->
  op_mode ov = MVerify -> op_in_file ov = None -> out = s ++ x -> run w ov s se' ve' = Done (Ok []) ->
  exists q b b', run_request w ov s q /\ mr_body r = Some b /\ mr_body q = Some b' /\ (sha256 b' = sha256 b \/ sha512 b' = sha512 b).
Proof.
  intros Ms Rs RR Ns Dr Hr Lb S S' Mv Fv E Rv. destruct (sign_cut w os ov stdin out s x r se se' ve ve' Ms Rs RR Ns Lb S S' Mv Fv E Rv) as (q & RQ & C & Hq).
  destruct C as (_ & _ & _ & C & _).
  assert (Dq : mr_derive q (CHeader $"digest") = Done (Some dv)).
  { rewrite <- Dr. unfold mr_derive. rewrite <- !first_value_get, (C $"digest") by discriminate. reflexivity. }
  destruct (Hr dv Dr) as (alg & v & F1 & B1). destruct (Hq dv Dq) as (alg' & v' & F2 & B2). destruct (first_entry_fun _ _ _ _ _ _ F1 F2) as [<- <-].
  destruct (mr_body r) as [b|] eqn:Br; [|discriminate]. destruct (mr_body q) as [b'|] eqn:Bq; [|discriminate]. cbn [option_map] in B1, B2. exists q, b, b'.
  repeat (split; [assumption || reflexivity|]). destruct F1 as (before & entry & after & _ & _ & _ & (k & z & name & _ & _ & _ & Da & _)).
  assert (Eb : dg_digest alg b' = dg_digest alg b) by congruence. clear - Da Eb. unfold default_digest_provider in Da.
  assert (J : forall x y : str, b64_encode x = b64_encode y -> x = y) by (intros a c H; apply (f_equal b64_decode) in H; rewrite !b64_decode_encode in H; now injection H).
  destruct (str_eqb _ $"SHA-256"); [injection Da as <-; left; now apply J|]. destruct (str_eqb _ $"SHA-512"); [injection Da as <-; right; now apply J|discriminate].
Qed.
Lemma kept_lost (room : option nat) (s : str) : s = kept room s ++ lost room s.
Proof. unfold kept, lost. destruct room; [now rewrite firstn_skipn|now rewrite app_nil_r]. Qed.
(** Signing with a standard output that fails. *)
Lemma sign_failed_write (w : world) (files : str -> option source) (os ov : opt) (stdin out : str) (r : mock) (room : option nat) (se se' : sign_env) (ve ve' : verify_env) :
  (forall f, op_in_file os = Some f -> files f = option_map whole (w_read w f)) ->
  op_mode os = MSign -> run w os stdin se ve = Done (Ok out) -> run_request w os stdin r -> first_value (mr_headers r) $"signature" = None ->
  (forall c l, op_label os = Some (c :: l) -> ~ blank c) -> sys_clock_ok (se_sys se) -> sys_clock_ok (ve_sys ve') ->
  op_mode ov = MVerify -> op_in_file ov = None ->
  let written := sk_dev (snd (main_io w files os (whole stdin) (fresh room) se ve)) in
  run w ov written se' ve' = Done (Ok []) ->
  exists q, run_request w ov written q /\ cut_request r q /\ honest_digest q.
Proof.
  intros A Ms Rs RR Ns Lb S S' Mv Fv written. assert (E : written = kept room out) by (apply (io_output w files os se ve room A stdin out None); now apply successful_output).
  rewrite E. intro Rv. exact (sign_cut w os ov stdin out _ (lost room out) r se se' ve ve' Ms Rs RR Ns Lb S S' Mv Fv (kept_lost room out) Rv).
Qed.
