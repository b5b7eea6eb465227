(** Facts for C101. *)
From Verif Require Import SpecCalls TailFacts CutFacts PipeFacts RunFacts MockFacts IoFacts TrustFacts LineFacts GrowFacts StrFacts VerifyFacts SignFacts RoundTrip OptFacts FlowFacts SpecSign OtherUrl SpecOther OtherFacts OtherNormal UrlParse.

Lemma call_event (w : world) (k : sign_command) : call_made w k -> exists e c v1 v2, sign_opts w (call_opts k) (Ok c)
  /\ e = SigningEvent (call_request k) (mr_set_header (mr_set_header (call_request k) $"signature-input" v1) $"signature" v2) c (call_env k) /\ happened mr_client e.
Proof.
  intros (Ms & S & RR & ve & out & Rs).
  apply run_read in Rs. destruct Rs as (r0 & RR0 & Rs). pose proof (run_request_fun _ _ _ _ _ RR RR0). subst r0. clear RR0. rewrite Ms in Rs.
  pose proof (sign_opts_sound w (call_opts k)) as So. destruct (signing_config_of w (call_opts k)) as [c|e]; [|congruence].
  destruct Rs as (r' & y & Sg & Rs). destruct y as [[]|]; [|discriminate]. clear Rs.
  pose proof (sign_given _ _ _ So) as (Rp & _). pose proof So as So0. 
  assert (Fl : sc_add_date c = false /\ sc_add_host c = false /\ sc_compute_digest c = false /\ sc_nonce c = None) by (inversion So; subst c; repeat split).
  destruct Fl as (F1 & F2 & F3 & F4). destruct (sign_plain (call_request k) r' c (call_env k) S F1 F2 F3 F4 Sg) as (v1 & v2 & _ & _ & _ & Er).
  exists (SigningEvent (call_request k) r' c (call_env k)), c, v1, v2. split; [exact So0|]. split; [now rewrite <- Er|].
  split; [exact S|]. split; [exact Sg|]. split; [exact Rp|]. cbn [ev_config]. rewrite F4. discriminate.
Qed.
Lemma calls_events (w : world) (calls : list sign_command) : Forall (call_made w) calls -> exists es, Forall (happened mr_client) es
  /\ Forall2 (fun k e => exists c v1 v2, sign_opts w (call_opts k) (Ok c)
       /\ e = SigningEvent (call_request k) (mr_set_header (mr_set_header (call_request k) $"signature-input" v1) $"signature" v2) c (call_env k)) calls es.
Proof.
  induction 1 as [|k calls H _ (es & I1 & I2)]; [exists []; split; constructor|]. destruct (call_event w k H) as (e & c & v1 & v2 & A & B & C).
  exists (e :: es). split; constructor; eauto.
Qed.
Lemma request_lines (w : world) (o : opt) (stdin : str) (r : mock) : parses_lines (w_url w) -> run_request w o stdin r -> line_request (mr_method r) (mr_url r).
Proof.
  intros P (i & _ & (line & rest & more & hs & _ & _ & _ & M & _) & _ & U).
  assert (X : line_request [] (mr_url r)) by (destruct U as [U|(_ & h & _ & _ & U)]; now apply P in U).
  destruct X as [_ X]. split; [|exact X]. intro I. rewrite Forall_forall in M. specialize (M _ I). apply tchar_iff in M. discriminate.
Qed.
Lemma Forall2_in_l {A B} (R : A -> B -> Prop) (l : list A) (l' : list B) (a : A) : Forall2 R l l' -> In a l -> exists b, In b l' /\ R a b.
Proof. induction 1 as [|x y l l' H _ IH]; intros []; [subst; exists y; split; [now left|exact H]|]. destruct IH as (b & I & J); [assumption|]. exists b. split; [now right|exact J]. Qed.
Lemma Forall2_in_r {A B} (R : A -> B -> Prop) (l : list A) (l' : list B) (b : B) : Forall2 R l l' -> In b l' -> exists a, In a l /\ R a b.
Proof. induction 1 as [|x y l l' H _ IH]; intros []; [subst; exists x; split; [now left|exact H]|]. destruct IH as (a & I & J); [assumption|]. exists a. split; [now right|exact J]. Qed.
Lemma Forall2_weaken {A B} (R Q : A -> B -> Prop) (l : list A) (l' : list B) : (forall a b, R a b -> Q a b) -> Forall2 R l l' -> Forall2 Q l l'.
Proof. intro H. induction 1; constructor; auto. Qed.
Lemma accepted_from_calls (w : world) (calls : list sign_command) (ov : opt) (t : str) (q : mock) (se : sign_env) (ve : verify_env) :
  Forall (call_made w) calls -> parses_lines (w_url w) -> (forall k cs p, In k calls -> given (call_opts k) (Some cs) -> In p cs -> ~ is_query_params p) ->
  op_mode ov = MVerify -> sys_clock_ok (ve_sys ve) -> run_request w ov t q -> run w ov t se ve = Done (Ok []) ->
  (exists k, In k calls /\ agrees_with w k ov q (seconds (ve_sys ve))) \/ forged_text w calls ov q.
Proof.
  intros Mk P Nq Mv S RQ Rv. destruct (calls_events w calls Mk) as (es & He & F2).
  apply run_read in Rv. destruct Rv as (q1 & RQ1 & Rv). pose proof (run_request_fun _ _ _ _ _ RQ RQ1). subst q1. clear RQ1. rewrite Mv in Rv.
  destruct (verify_opts_sound w ov) as (y & Vo & Ag). destruct (verification_config_of w ov) as [vc|e]; [|congruence].
  destruct Rv as (x & Vf & Rx). destruct x as [[[] kid]|]; [|discriminate]. destruct y as [keys|]; [|contradiction]. destruct Ag as (Vk & _).
  assert (Ln : forall e, In e es -> single_line (ev_view mr_client e) /\ forall p, In p (sc_components (ev_config e)) -> ~ is_query_params p).
  { intros e Ie. destruct (Forall2_in_r _ _ _ e F2 Ie) as (k & Ik & c & v1 & v2 & So & ->). rewrite Forall_forall in Mk. destruct (Mk k Ik) as (_ & _ & RR & _).
    pose proof (request_lines _ _ _ _ P RR) as L. split.
    - intros p v Np D. unfold ev_view in D. cbn [ev_before ev_after] in D. change (cr_rl mr_client) with mr_rl in D. rewrite view_is in D. exact (mr_single_line _ L p v Np D).
    - intros p. cbn [ev_config]. inversion So as [a' ty' pem' key' oc A' L' K' P' G' E| | | | | | |]. cbn [sc_components].
      destruct oc as [cs|]; cbn [or_else]; [|intros []]. intro Ip. exact (Nq k cs p Ik G' Ip). }
  assert (Kid : exists k0, In k0 (keys kid)).
  { destruct (accepted_signature mr_server q vc ve tt kid Vf) as (cc & sig & _ & base2 & k0 & _ & Kin & _). exists k0. now rewrite <- Vk. }
  destruct (accepted_was_signed mr_client mr_client_laws mr_server es q vc ve tt kid He Ln (mr_single_line q (request_lines _ _ _ _ P RQ)) S Vf) as [F|A].
  - right. destruct F as (cc & sig & m & k & H1 & H2 & H3 & H4 & H5). exists keys, kid, k, cc, sig, m.
    split; [exact Vo|]. split; [now rewrite <- Vk|]. split; [exact H1|]. split; [exact H2|]. split; [exact H4|].
    intros k' Ik (c' & So' & B'). destruct (Forall2_in_l _ _ _ k' F2 Ik) as (e & Ie & c & v1 & v2 & So & ->).
    pose proof (sign_opts_fun _ _ _ _ So So') as E. injection E as <-. apply (H5 _ Ie). pose proof (sign_given _ _ _ So) as (_ & _ & _ & _ & Sm & _).
    exists (sc_components c). cbn [ev_config]. split; [unfold covered; now rewrite Sm|]. unfold ev_view, ev_stamp. cbn [ev_before ev_after ev_config ev_env].
    revert B'. apply signature_base_ext. intros p _. symmetry. apply (view_is (call_request k') v1 v2).
  - left. destruct A as (e & input & cc & cs & Ie & Ek & Hi & Ir & Cv & Sp & F & Tc & Te). destruct (Forall2_in_r _ _ _ e F2 Ie) as (k & Ik & c & v1 & v2 & So & ->).
    pose proof (sign_given _ _ _ So) as (_ & _ & _ & _ & Sm & _). cbn [ev_config ev_env] in *. unfold covered in Cv. rewrite Sm in Cv. subst cs.
    exists k. split; [exact Ik|]. exists c, input, cc. split; [exact So|]. split; [exact Hi|]. split; [exact Ir|]. split; [exact Sp|]. split; [|].
    + revert F. apply Forall2_weaken. intros a b (Sc & v & D1 & D2). split; [exact Sc|]. exists v. split; [exact D1|].
      unfold ev_view in D2. cbn [ev_before ev_after] in D2. change (cr_rl mr_client) with mr_rl in D2. now rewrite view_is in D2.
    + inversion So as [a' ty' pem' key' oc A' L' K' P' G' E| | | | | | |]. subst c. cbn [sc_key_id sc_created sc_expires] in *. split; [|split].
      * rewrite Ek. destruct Kid as [k0 Kin]. inversion Vo as [a2 t2 pem2 key2 A2 L2 K2 P2 E2|N2 A2 E2| | | | |]; subst keys; [|destruct Kin].
        unfold one_key in Kin. destruct (str_eqb _ kid) eqn:Q; [|destruct Kin]. apply str_eqb_eq in Q. now symmetry.
      * intros z Z. apply Tc. unfold created_at. cbn [sc_created]. now rewrite Z.
      * intros z Z. apply Te. unfold expires_at. cbn [sc_expires]. now rewrite Z.
Qed.
Lemma parser_lines (hp : host_parser) (fp : str -> result url url_error) : host_laws hp -> file_laws fp ->
  (forall rest u, fp rest = Ok u -> line_request [] u) -> parses_lines (url_parse hp (parse_other fp)).
Proof.
  intros K KF Lf s u H. destruct (list_eq_dec ascii_dec (u_scheme u) $"file") as [Ef|Nf].
  - unfold url_parse in H. destruct (parse_scheme (clean_input s)) as [[sch' rest]|] eqn:P; [|discriminate]. destruct (default_port sch') as [dp|] eqn:D.
    + exfalso. assert (Hu : u_scheme u = sch').
      { unfold parse_special in H. destruct (parse_userinfo _) as [[n pw] hps]. destruct (split_host false hps) as [h p].
        destruct h as [|c h]; [discriminate|]. destruct (hp (c :: h)); [|discriminate]. destruct (parse_port sch' p); [|discriminate].
        destruct (parse_query _) as [oq of]. now injection H as <-. }
      rewrite <- Hu, Ef in D. discriminate.
    + destruct (list_eq_dec ascii_dec sch' $"file") as [->|N].
      * unfold parse_other in H. change (str_eqb $"file" $"file") with true in H. exact (Lf rest u H).
      * exfalso. apply (parse_other_iff fp sch' rest u N) in H. destruct H as [Hs _]. congruence.
  - apply (any_line hp s [] u K); [|intros []]. apply (any_iff hp fp s u KF). auto.
Qed.
