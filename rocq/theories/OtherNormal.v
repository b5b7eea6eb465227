(** The text of a parsed URL whose scheme is not special stands for that URL. *)
From Verif Require Export OtherFacts.
From Verif Require Import SpecOther UrlFacts UrlNormal NameFacts HostTextFacts TargetFacts LineFacts MockFacts RoundTrip ReqFacts SignMore SpecMore GrowFacts.

(** ** Hosts *)
Lemma controls_chars (s t : str) : controls_encoded s t -> Forall (fun c => (32 <= N_of_ascii c <= 126)%N) t
  /\ forall P : ascii -> Prop, P "%"%char -> (forall c, digit c \/ letter c -> P c) -> Forall P s -> Forall P t.
Proof.
  assert (U : forall v, (v < 16)%N -> digit (hex_upper v) \/ letter (hex_upper v)).
  { intros v V. unfold hex_upper, digit, letter. destruct (v <? 10)%N eqn:E; rewrite N_ascii_embedding; lia. }
  assert (B : forall c, (N_of_ascii c / 16 < 16)%N /\ (N_of_ascii c mod 16 < 16)%N).
  { intro c. pose proof (N_ascii_bounded c). split; [apply N.div_lt_upper_bound; lia|apply N.mod_lt; lia]. }
  assert (V : forall v, digit v \/ letter v -> (32 <= N_of_ascii v <= 126)%N) by (intros v H; unfold digit, letter in H; lia).
  induction 1 as [|c s t S _ (IH1 & IH2)|c s t S _ (IH1 & IH2)].
  - split; auto.
  - split; [now constructor|]. intros P P1 P2 F. inversion F; subst. constructor; auto.
  - destruct (B c) as [B1 B2]. split.
    + constructor; [cbn; lia|]. constructor; [apply V, U, B1|]. constructor; [apply V, U, B2|exact IH1].
    + intros P P1 P2 F. inversion F; subst. constructor; [exact P1|]. constructor; [apply P2, U, B1|]. constructor; [apply P2, U, B2|auto].
Qed.
Lemma controls_self (t : str) : Forall (fun c => (32 <= N_of_ascii c <= 126)%N) t -> controls_encoded t t.
Proof. induction 1; now constructor. Qed.
Lemma controls_nil (s : str) : controls_encoded s [] -> s = [].
Proof. now inversion 1. Qed.
Definition some_host : host_parser := fun h => match h with [] => None | _ => opaque_host h end.
Definition opaque_char (c : ascii) : Prop := ~ In (N_of_ascii c) [0; 9; 10; 13]%N /\ ~ one_of " #/:<>?@[\]^|" c.
Lemma opaque_again (s t : str) : Forall opaque_char s -> controls_encoded s t -> Forall opaque_char t.
Proof.
  intros F C. apply (proj2 (controls_chars s t C) opaque_char); [| |exact F].
  - split; cbn; intuition discriminate.
  - intros c H. assert (X : forallb (fun c => implb (is_digit c || is_alpha c) (negb (invalid_opaque_char c))) all_bytes = true) by (vm_compute; reflexivity).
    pose proof (byte_all _ X c) as E. cbv beta in E. assert (D : is_digit c || is_alpha c = true).
    { apply orb_true_iff. destruct H as [H|H]; [left; unfold is_digit, in_range, code; unfold digit in H; lia|right; now apply letter_iff]. }
    rewrite D in E. cbn [implb] in E. apply negb_true_iff in E. assert (G : existsb invalid_opaque_char [c] = false) by (cbn [existsb]; now rewrite E).
    apply opaque_chars in G. now inversion G.
Qed.
Lemma opaque_bracket_host (s t : str) : starts_with $"[" s = true -> (some_host s = Some t -> url_host ascii_idna s = Some t).
Proof.
  intros B H. unfold some_host in H. destruct s as [|c s]; [discriminate|]. apply (opaque_bracket (c :: s) t B) in H. destruct H as (p & H & ->).
  unfold url_host. assert (E : host_parse ascii_idna (c :: s) = host_parse (fun _ => None) (c :: s)) by (unfold host_parse; rewrite B; reflexivity). rewrite E, H. reflexivity.
Qed.
Lemma some_host_of (s t : str) : some_host s = Some t <-> s <> [] /\ opaque_host_of s t.
Proof.
  unfold some_host. destruct s as [|c s]; [split; [discriminate|intros [N _]; now destruct N]|]. rewrite opaque_iff. split; [intro H; split; [discriminate|exact H]|tauto].
Qed.
Lemma some_host_laws : host_laws some_host.
Proof.
  assert (L : host_laws (url_host ascii_idna)) by exact (url_host_laws ascii_idna ascii_idna_laws).
  assert (K : forall h h', some_host h = Some h' -> url_host ascii_idna h = Some h' /\ starts_with $"[" h' = true
    \/ h <> [] /\ h' <> [] /\ Forall opaque_char h' /\ Forall (fun c => (32 <= N_of_ascii c <= 126)%N) h').
  { intros h h' H. destruct (starts_with $"[" h) eqn:B.
    - left. split; [now apply opaque_bracket_host|]. apply some_host_of in H. destruct H as (_ & H). inversion H as [x p w R W E1 E2|x t F C E1 E2]; subst; [reflexivity|].
      exfalso. apply starts_with_spec in B. destruct B as [y ->]. inversion F as [|z w [_ Z] _]. apply Z. cbn. tauto.
    - right. apply some_host_of in H. destruct H as (N & H). inversion H as [x p w R W E1 E2|x t F C E1 E2]; subst; [discriminate B|].
      split; [exact N|]. split; [intros ->; now apply controls_nil in C|]. split; [exact (opaque_again _ _ F C)|exact (proj1 (controls_chars _ _ C))]. }
  split; intros h h' H; pose proof H as H0; apply K in H; destruct H as [(H & B)|(N & N' & F & V)].
  - now apply (hl_text _ L h).
  - split; [exact N'|]. rewrite Forall_forall in *. intros c I. specialize (F c I). specialize (V c I). destruct F as (_ & O). unfold one_of in *. cbn [list_ascii_of_string In] in *.
    assert (Nc : N_of_ascii c <> 32%N). { intro E. apply O. left. rewrite <- (ascii_N_embedding c), E. reflexivity. }
    split; [lia|]. split; [intros [-> | ->]; apply O; tauto|]. intros [<-|[<-|[<-|[]]]]; apply O; tauto.
  - now apply (hl_brackets _ L h).
  - clear - F. induction F as [|c s (_ & O) _ IH]; [constructor|]. unfold one_of in O. cbn [list_ascii_of_string In] in O. apply br_other; [| | |exact IH]; intros ->; apply O; tauto.
  - apply some_host_of. split; [now apply (hl_text _ L h)|]. pose proof (hl_again _ L h h' H) as A. apply opaque_iff.
    unfold url_host in A. destruct (host_parse ascii_idna h') as [g|] eqn:G; [|discriminate A]. apply opaque_bracket; [exact B|].
    assert (E : host_parse ascii_idna h' = host_parse (fun _ => None) h') by (unfold host_parse; rewrite B; reflexivity).
    rewrite <- E, G. apply host_iff in G. cbn [option_map] in A. inversion G as [x p R E1 E2|x d n Nb|x d Nb]; subst.
    + exists p. split; [reflexivity|]. change (host_show (HIpv6 p)) with ($"[" ++ ipv6_text p ++ $"]") in A. congruence.
    + exfalso. apply starts_with_spec in B. destruct B as [y B]. now apply (Nb y).
    + exfalso. apply starts_with_spec in B. destruct B as [y B]. now apply (Nb y).
  - apply some_host_of. split; [exact N'|]. apply opaque_text; [exact F|now apply controls_self].
Qed.
Lemma other_authority_of (sch a pt : str) (u : url) : other_authority sch a pt u -> u_host u = None /\ u_username u = [] /\ u_password u = None /\ u_port u = None
  \/ authority_of some_host sch a u.
Proof.
  destruct 1 as [a u I U P H Po|h pt host u N U P T H Hh Po|c h pt host u C N T H Hh Po]; [left; auto| |]; right.
  - apply authority_plain; auto; [|congruence]. rewrite Hh. apply some_host_of. destruct T. auto.
  - apply authority_user; auto; [|congruence]. rewrite Hh. apply some_host_of. destruct T. auto.
Qed.
Lemma authority_of_other (sch a : str) (u : url) : authority_of some_host sch a u -> exists pt, other_authority sch a pt u.
Proof.
  destruct 1 as [h pt u A U W T H Hn P|c h pt u C A T H Hn P]; exists pt; destruct (u_host u) as [host|] eqn:E; try contradiction; apply some_host_of in H; destruct H as (_ & H).
  - now apply oa_plain with (host := host).
  - now apply oa_user with (host := host).
Qed.

(** ** Paths *)
Lemma encoded_no_fwd (set : string) (s t : str) : encoded set s t -> ~ In "/"%char s -> ~ In "/"%char t.
Proof.
  induction 1 as [|c s t S _ IH|c s t S _ IH]; intros N I; [easy| |].
  - destruct I as [->|I]; [apply N; now left|]. apply IH; [|exact I]. intro J. apply N. now right.
  - pose proof (N_ascii_bounded c) as B. destruct I as [I|[I|[I|I]]]; [discriminate I| | |apply IH; [|exact I]; intro J; apply N; now right].
    + apply (hex_no_slash (N_of_ascii c / 16)); [apply N.div_lt_upper_bound; lia|]. left. exact I.
    + apply (hex_no_slash (N_of_ascii c mod 16)); [apply N.mod_lt; lia|]. left. exact I.
Qed.
Lemma fwd_parts (s : str) (l : list str) : fwd_segments s l -> Forall (fun x => ~ In "/"%char x) l.
Proof. induction 1; auto. Qed.
Lemma fwd_plain (d : list str) (x : str) : Forall (fun y => ~ In "/"%char y) (d ++ [x]) -> fwd_segments (List.concat (map (fun s => s ++ $"/") d) ++ x) (d ++ [x]).
Proof.
  intro F. apply Forall_app in F. destruct F as [F G]. inversion G as [|y z X _]; subst. clear G. induction F as [|a d A _ IH]; cbn [map List.concat app]; [now constructor|].
  rewrite <- !app_assoc. cbn [s2b list_ascii_of_string app]. apply fwd_more; [exact A|exact IH].
Qed.
Lemma fwd_normal (s t : str) : fwd_path_of s t -> exists t', t = "/"%char :: t' /\ fwd_path_of t' t /\ Forall (stays path_set) t'.
Proof.
  intros (segs & l & d & S & F & H). apply fwd_parts in S.
  assert (L : Forall (fun y => Forall (stays path_set) y /\ ~ In "/"%char y) l).
  { clear H. revert S. induction F as [|a b segs l E _ IH]; intro S; [constructor|]. inversion S as [|p q A S']; subst. constructor; [|auto].
    split; [now apply (encoded_stays path_set a b path_plain)|now apply (encoded_no_fwd _ _ _ E)]. }
  assert (K : forall l' d x, Forall (fun y => Forall (stays path_set) y /\ ~ In "/"%char y) (l' ++ [x]) -> reached l' d -> ~ dot x -> ~ dots x ->
    exists t', directory_text d ++ x = "/"%char :: t' /\ fwd_path_of t' (directory_text d ++ x) /\ Forall (stays path_set) t').
  { intros l' d' x L' R N1 N2. exists (List.concat (map (fun s => s ++ $"/") d') ++ x). split; [reflexivity|].
    apply Forall_app in L'. destruct L' as [L1 L2]. inversion L2 as [|p q (X1 & X2) _]; subst. apply reached_parts in R. rewrite Forall_forall in R, L1.
    assert (G : Forall (fun y => Forall (stays path_set) y /\ ~ In "/"%char y /\ ~ dot y /\ ~ dots y) d').
    { apply Forall_forall. intros y I. destruct (R y I) as (J & M1 & M2). destruct (L1 y J). auto. }
    split.
    - exists (d' ++ [x]), (d' ++ [x]), d'. split; [|split].
      + apply fwd_plain, Forall_app. split; [eapply Forall_impl; [|exact G]; cbn; tauto|now constructor].
      + apply UrlNormal.Forall2_refl, Forall_app. split; [eapply Forall_impl; [|exact G]; cbn; intros a (A & _); now apply stays_encoded|]. constructor; [now apply stays_encoded|constructor].
      + right. exists d', x. split; [reflexivity|]. split; [|auto]. apply reached_plain. eapply Forall_impl; [|exact G]. cbn. tauto.
    - apply Forall_app. split; [|exact X1]. apply concat_chars; [apply staysb_iff; reflexivity|]. eapply Forall_impl; [|exact G]. cbn. tauto. }
  destruct H as [(R & _ & ->)|(l' & x & -> & R & N1 & N2 & ->)].
  - destruct nil_no_dot as [N1 N2]. destruct (K l d []) as (t' & E & P & C); [|exact R|exact N1|exact N2|].
    + apply Forall_app. split; [exact L|]. constructor; [split; [constructor|easy]|constructor].
    + rewrite app_nil_r in E, P. exists t'. auto.
  - now apply (K l').
Qed.
Lemma fwd_dot (t p : str) : fwd_path_of t p -> fwd_path_of ($"./" ++ t) p.
Proof.
  intro H. apply fwd_path_iff in H. apply fwd_path_iff. rewrite H. change (split_fwd ($"./" ++ t)) with ($"." :: split_fwd t).
  destruct (split_fwd_snoc t) as (l & x & E). rewrite E. cbn [path_loop]. change (percent_encode enc_path $".") with $".".
  change (double_dot $".") with false. change (single_dot $".") with true. cbv iota. reflexivity.
Qed.

(** ** The whole text *)
Lemma scheme_again (sch n : str) : scheme_text sch -> Forall2 lower_of sch n -> scheme_text n /\ Forall2 lower_of n n /\ Forall (fun c => (33 <= N_of_ascii c <= 126)%N) n.
Proof.
  intros S L.
  assert (P : parse_scheme (sch ++ $":") = Some (n, [])) by (apply parse_scheme_iff; exists sch; auto).
  assert (Q : parse_scheme (n ++ $":") = Some (n, [])).
  { assert (En : n = map to_lower sch) by (symmetry; apply parse_scheme_iff in P; now apply Forall2_lower in L). 
    assert (X : forallb (fun c => implb (scheme_char c) (scheme_char (to_lower c) && Ascii.eqb (to_lower (to_lower c)) (to_lower c))
      && implb (is_alpha c) (is_alpha (to_lower c)) && negb (Ascii.eqb c ":" && scheme_char c)) all_bytes = true) by (vm_compute; reflexivity).
    assert (Y : forall c, scheme_char c = true -> scheme_char (to_lower c) = true /\ to_lower (to_lower c) = to_lower c).
    { intros c H. pose proof (byte_all _ X c) as E. cbv beta in E. rewrite H in E. cbn [implb] in E. rewrite !andb_true_iff in E. destruct E as (((E1 & E2) & _) & _). now apply Ascii.eqb_eq in E2. }
    destruct S as ((c & s' & Es & A) & F).
    assert (Fc : forallb scheme_char sch = true) by now apply (forallb_iff _ _ _ scheme_char_iff).
    assert (Fn : forallb scheme_char n = true).
    { rewrite En. rewrite forallb_forall in *. intros x I. apply in_map_iff in I. destruct I as (y & <- & I). now apply Y, Fc. }
    assert (An : exists d n', n = d :: n' /\ is_alpha d = true).
    { rewrite En, Es. exists (to_lower c), (map to_lower s'). split; [reflexivity|]. apply letter_iff in A. pose proof (byte_all _ X c) as E. cbv beta in E. rewrite A in E. rewrite !andb_true_iff in E. now destruct E as ((_ & E) & _). }
    destruct An as (d & n' & Ed & Ad). unfold parse_scheme. rewrite Ed. cbn [app]. rewrite Ad. change (d :: n' ++ $":") with ((d :: n') ++ $":"). rewrite <- Ed.
    rewrite take_while_app, drop_while_app by (assumption || reflexivity). cbn [s2b list_ascii_of_string]. cbn [Ascii.eqb Bool.eqb]. cbv iota. f_equal. f_equal.
    rewrite En, map_map. apply map_ext_in. intros x I. rewrite forallb_forall in Fc. now apply Y, Fc. }
  apply parse_scheme_iff in Q. destruct Q as (sch' & E & T & L'). assert (E' : n = sch') by (apply app_inj_tail in E; tauto). rewrite <- E' in *.
  split; [exact T|]. split; [exact L'|]. destruct T as (_ & F). eapply Forall_impl; [|exact F]. cbn. intros c [H|[H|H]]; [unfold letter in H; lia|unfold digit in H; lia|].
  destruct H as [<-|[<-|[<-|[]]]]; cbn; lia.
Qed.
Lemma edge_input (t : str) : Forall (fun c => (32 <= N_of_ascii c <= 126)%N) t -> (forall c x, t = c :: x -> ~ low c) -> (forall c x, t = x ++ [c] -> ~ low c) -> url_input t t.
Proof.
  intros F A B. exists [], t, []. rewrite app_nil_r. split; [reflexivity|]. split; [constructor|]. split; [constructor|]. split; [exact A|]. split; [exact B|].
  apply without_iff. symmetry. clear A B. induction F as [|c t C _ IH]; [reflexivity|]. cbn [filter]. unfold tab_or_newline, code.
  replace ((N_of_ascii c =? 9) || (N_of_ascii c =? 10) || (N_of_ascii c =? 13))%N with false by lia. cbn [negb]. now rewrite IH at 1.
Qed.
Lemma input_last (s t x : str) (c : ascii) : url_input s t -> t = x ++ [c] -> ~ low c.
Proof.
  intros (a & m & b & _ & _ & _ & _ & B & W) E. apply without_iff in W. destruct m as [|d m] using rev_ind; [rewrite W in E; destruct x; discriminate E|].
  rewrite filter_app in W. cbn [filter] in W. specialize (B d m eq_refl).
  assert (T : tab_or_newline d = false). { unfold tab_or_newline, code. unfold low in B. lia. }
  rewrite T in W. cbn [negb] in W. rewrite W in E. apply app_inj_tail in E. now destruct E as (_ & <-).
Qed.
Lemma controls_last (s t x : str) (c : ascii) : controls_encoded s t -> (forall d y, s = y ++ [d] -> ~ low d) -> t = x ++ [c] -> ~ low c.
Proof.
  intros C L E. apply controls_iff in C. destruct s as [|d s] using rev_ind; [rewrite C in E; destruct x; discriminate E|].
  unfold percent_encode in C. rewrite map_app, concat_app in C. cbn [map List.concat] in C. rewrite app_nil_r in C. specialize (L d s eq_refl).
  unfold encode_byte in C at 2. destruct (enc_control d) eqn:D.
  - change ["%"%char; hex_char (code d / 16); hex_char (code d mod 16)] with (["%"%char; hex_char (code d / 16)] ++ [hex_char (code d mod 16)]) in C.
    rewrite app_assoc, E in C. apply app_inj_tail in C. destruct C as (_ & ->). unfold low, hex_char, code. pose proof (N_ascii_bounded d).
    assert (B : (N_of_ascii d mod 16 < 16)%N) by (apply N.mod_lt; lia). destruct (N_of_ascii d mod 16 <? 10)%N eqn:G; rewrite N_ascii_embedding; lia.
  - rewrite E in C. apply app_inj_tail in C. now destruct C as (_ & ->).
Qed.
Lemma other_query_plain : forall c, one_of other_query_set c -> c <> "%"%char /\ ~ digit c /\ ~ letter c. Proof. apply set_plain. vm_compute. reflexivity. Qed.
Lemma last_part (a b x : str) (c : ascii) : a ++ b = x ++ [c] -> b = [] /\ a = x ++ [c] \/ exists y, b = y ++ [c].
Proof.
  intro E. destruct b as [|d b _] using rev_ind; [left; rewrite app_nil_r in E; auto|]. right. rewrite app_assoc in E. apply app_inj_tail in E. destruct E as (_ & ->). eauto.
Qed.
Lemma visible_last (b y : str) (c : ascii) : Forall (fun c => (33 <= N_of_ascii c <= 126)%N) b -> b = y ++ [c] -> ~ low c.
Proof. intros F ->. apply Forall_app in F. destruct F as (_ & F). inversion F; subst. unfold low. lia. Qed.
Lemma reparse_printable (s t : str) (u : url) : other_url s u -> url_text u t -> other_url t u /\ Forall (fun c => (32 <= N_of_ascii c <= 126)%N) t.
Proof.
  intros (s' & sch & before & q & f & I & Es & T & L & Ns & Nf & Fb & Tq & Nq & Tf & H) (a & q' & f' & Ta & Pq & Pf & ->).
  destruct (scheme_again sch (u_scheme u) T L) as (S1 & S2 & S3).
  destruct (tail_again "?" other_query_set (u_query u) q q' other_query_plain) as (T1 & T2 & T3); [cbn; lia|exact Tq|exact Pq|].
  destruct (tail_again "#" fragment_set (u_fragment u) f f' fragment_plain) as (G1 & G2 & _); [cbn; lia|exact Tf|exact Pf|].
  assert (Nq' : ~ In "#"%char q') by (apply T3; [discriminate|cbn; tauto]).
  assert (W : forall x, Forall (fun c => (33 <= N_of_ascii c <= 126)%N) x -> Forall (fun c => (32 <= N_of_ascii c <= 126)%N) x) by (intros x F; eapply Forall_impl; [|exact F]; cbn; lia).
  assert (K : forall b', a ++ u_path u = b' -> Forall (fun c => (32 <= N_of_ascii c <= 126)%N) b' -> (forall c x, q' ++ f' = [] -> b' = x ++ [c] -> ~ low c) ->
    u_scheme u ++ $":" ++ a ++ u_path u ++ q' ++ f' = u_scheme u ++ $":" ++ b' ++ q' ++ f'
    /\ url_input (u_scheme u ++ $":" ++ a ++ u_path u ++ q' ++ f') (u_scheme u ++ $":" ++ a ++ u_path u ++ q' ++ f')
    /\ Forall (fun c => (32 <= N_of_ascii c <= 126)%N) (u_scheme u ++ $":" ++ a ++ u_path u ++ q' ++ f')).
  { intros b' Eb Vb Lb. assert (X : u_scheme u ++ $":" ++ a ++ u_path u ++ q' ++ f' = u_scheme u ++ $":" ++ b' ++ q' ++ f') by (rewrite <- Eb; now rewrite <- app_assoc).
    assert (Vt : Forall (fun c => (32 <= N_of_ascii c <= 126)%N) (u_scheme u ++ $":" ++ b' ++ q' ++ f')).
    { apply Forall_app. split; [now apply W|]. apply Forall_app. split; [repeat constructor; cbn; lia|]. apply Forall_app. split; [exact Vb|]. apply W. now apply Forall_app. }
    split; [exact X|]. rewrite X. split; [|exact Vt]. apply edge_input; [exact Vt| |].
    - intros c x E. destruct S1 as ((d & n & En & Hd) & _). rewrite En in E. injection E as <- _. unfold letter in Hd. unfold low. lia.
    - intros c x E. rewrite !app_assoc in E. rewrite <- (app_assoc _ q' f') in E. apply last_part in E. destruct E as [(Z & E)|(y & E)].
      + apply last_part in E. destruct E as [(Z' & E)|(y & E)]; [|now apply (Lb c y Z)].
        apply last_part in E. destruct E as [(E & _)|(y & E)]; [discriminate E|]. destruct y as [|? y]; [injection E as <-; unfold low; cbn; lia|]. injection E as _ E. destruct y; discriminate E.
      + apply (visible_last (q' ++ f') y); [now apply Forall_app|exact E]. }
  destruct H as [(a0 & pt & b & path & Eb & Ha & N & O & Tl & Ka & Hp & Pp)|[(p & Eb & Np & (Ha & U & P & Hh & Po) & F)|(Np & (Ha & U & P & Hh & Po) & F)]].
  - (* authority *)
    assert (X : exists a' pt', a = $"//" ++ a' /\ other_authority (u_scheme u) a' pt' u /\ Forall (fun c => ~ slash c /\ c <> "?"%char /\ c <> "#"%char) a'
                /\ Forall (fun c => (33 <= N_of_ascii c <= 126)%N) a' /\ a' <> $"@").
    { apply other_authority_of in O. destruct O as [(O1 & O2 & O3 & O4)|O].
      - exists [], []. unfold authority_text in Ta. rewrite Ha, O1, O2, O3, O4 in Ta. destruct Ta as (ui & h & pp & Ui & -> & -> & ->).
        assert (ui = []) as -> by (inversion Ui; [reflexivity|contradiction]). split; [reflexivity|]. split; [apply oa_no_host; auto; now left|]. repeat split; try constructor. discriminate.
      - destruct (authority_again some_host (u_scheme u) a0 u some_host_laws O Ha a Ta) as (a' & -> & A' & F1 & F2). pose proof A' as A0.
        apply authority_of_other in A'. destruct A' as (pt' & A'). exists a', pt'. split; [reflexivity|]. split; [exact A'|]. split; [exact F1|]. split; [exact F2|].
        intros ->. apply authority_iff in A0. destruct A0 as (n0 & pw0 & hps0 & h0 & p0 & E1 & E2 & E3 & _). injection E1 as <- <- <-. injection E2 as <- <-. now apply E3. }
    destruct X as (a' & pt' & -> & A' & F1 & F2 & Na).
    assert (Y : u_path u = [] \/ exists p', u_path u = "/"%char :: p' /\ fwd_path_of p' (u_path u) /\ Forall (stays path_set) p').
    { destruct Pp as [(_ & Y)|[(p0 & _ & Y)|(_ & Y)]]; [now left| |]; right; apply fwd_normal in Y; destruct Y as (t' & ? & ? & ?); eauto. }
    assert (Vp : Forall (fun c => (33 <= N_of_ascii c <= 126)%N) (u_path u) /\ Forall (fun c => c <> "?"%char /\ c <> "#"%char) (u_path u)).
    { destruct Y as [-> |(p' & -> & _ & Y)]; [split; constructor|]. split; (constructor; [try (split; discriminate); cbn; lia|]); [now apply stays_visible in Y|].
      eapply Forall_impl; [|exact Y]. intros c (_ & Z). unfold one_of in Z. split; intros ->; apply Z; cbn; tauto. }
    destruct Vp as (Vp & Qp).
    assert (V33 : Forall (fun c => (33 <= N_of_ascii c <= 126)%N) (($"//" ++ a') ++ u_path u)).
    { apply Forall_app. split; [|exact Vp]. apply Forall_app. split; [repeat constructor; cbn; lia|exact F2]. }
    destruct (K (($"//" ++ a') ++ u_path u) eq_refl (W _ V33)) as (X & Inp & Vt); [intros c x _ E; now apply (visible_last _ _ _ V33 E)|].
    split; [|exact Vt]. exists (u_scheme u ++ $":" ++ ($"//" ++ a') ++ u_path u ++ q' ++ f'), (u_scheme u), (($"//" ++ a') ++ u_path u), q', f'.
    split; [exact Inp|]. split; [exact X|]. split; [exact S1|]. split; [exact S2|]. split; [exact Ns|]. split; [exact Nf|]. split.
    { apply Forall_app. split; [|exact Qp]. apply Forall_app. split; [repeat constructor; discriminate|]. eapply Forall_impl; [|exact F1]. cbn. tauto. }
    split; [exact T1|]. split; [exact Nq'|]. split; [exact G1|]. left. exists a', pt', [], (u_path u). split; [now rewrite <- app_assoc|]. split; [exact Ha|].
    split; [rewrite app_nil_r; intro J; rewrite Forall_forall in F1; apply F1 in J; destruct J as (J & _); apply J; now left|]. split; [exact A'|]. split; [now left|].
    split; [intro E; contradiction|]. cbn [app]. destruct Y as [Y|(p' & Y & Y' & _)].
    + split; [now left|]. left. now split.
    + split; [right; eauto|]. right. left. eauto.
  - (* rooted *)
    apply fwd_normal in F. destruct F as (t' & Et & F & C).
    assert (X : exists p', a ++ u_path u = "/"%char :: p' /\ (forall z, p' <> "/"%char :: z) /\ fwd_path_of p' (u_path u) /\ Forall (stays path_set) p').
    { unfold authority_text in Ta. rewrite Ha in Ta. destruct Ta as [((z & Ez) & ->)|(Nz & ->)].
      - exists ($"./" ++ t'). rewrite Et. split; [reflexivity|]. split; [discriminate|]. split; [rewrite <- Et; now apply fwd_dot|]. apply Forall_app. split; [|exact C]. repeat constructor; try (cbn; lia); unfold one_of; cbn; intuition discriminate.
      - exists t'. split; [exact Et|]. split; [|auto]. intros z ->. now apply (Nz z). }
    destruct X as (p' & Ea & Nz & F' & C'). 
    assert (V33 : Forall (fun c => (33 <= N_of_ascii c <= 126)%N) ("/"%char :: p')) by (constructor; [cbn; lia|now apply stays_visible in C']).
    destruct (K ("/"%char :: p') Ea (W _ V33)) as (X & Inp & Vt); [intros c x _ E; now apply (visible_last _ _ _ V33 E)|].
    split; [|exact Vt]. exists (u_scheme u ++ $":" ++ a ++ u_path u ++ q' ++ f'), (u_scheme u), ("/"%char :: p'), q', f'.
    split; [exact Inp|]. split; [exact X|]. split; [exact S1|]. split; [exact S2|]. split; [exact Ns|]. split; [exact Nf|]. split.
    { constructor; [split; discriminate|]. eapply Forall_impl; [|exact C']. intros c (_ & Z). unfold one_of in Z. split; intros ->; apply Z; cbn; tauto. }
    split; [exact T1|]. split; [exact Nq'|]. split; [exact G1|]. right. left. exists p'. split; [reflexivity|]. split; [exact Nz|]. split; [|exact F']. repeat split; assumption.
  - (* opaque *)
    destruct (controls_chars before (u_path u) F) as (V & Tr).
    assert (Np' : forall p, u_path u <> "/"%char :: p).
    { intros p E. rewrite E in F. inversion F as [|c s0 t0 _ _ E1 E2|]; subst. now apply (Np s0). }
    assert (a = []) as ->.
    { unfold authority_text in Ta. rewrite Ha in Ta. destruct Ta as [((z & Ez) & _)|(_ & ->)]; [|reflexivity]. now destruct (Np' ("/"%char :: z)). }
    assert (Qe : q' ++ f' = [] -> q ++ f = []).
    { intro E. apply app_eq_nil in E. destruct E as (-> & ->). destruct (u_query u); [discriminate Pq|]. destruct (u_fragment u); [discriminate Pf|]. cbn [tail_of] in Tq, Tf. now subst. }
    destruct (K (u_path u) eq_refl V) as (X & Inp & Vt).
    { intros c x E Ex. apply (controls_last before (u_path u) x c F); [|exact Ex]. intros d y Ed. apply (input_last s s' (sch ++ $":" ++ y) d I).
      rewrite Es, Ed, (Qe E), app_nil_r, <- !app_assoc. reflexivity. }
    split; [|exact Vt]. exists (u_scheme u ++ $":" ++ [] ++ u_path u ++ q' ++ f'), (u_scheme u), (u_path u), q', f'.
    split; [exact Inp|]. split; [exact X|]. split; [exact S1|]. split; [exact S2|]. split; [exact Ns|]. split; [exact Nf|]. split.
    { apply Tr; [split; discriminate| |exact Fb]. intros c Hc. unfold digit, letter in Hc. split; intros ->; cbn in Hc; lia. }
    split; [exact T1|]. split; [exact Nq'|]. split; [exact G1|]. right. right. split; [exact Np'|]. split; [repeat split; assumption|]. now apply controls_self.
Qed.

Lemma reparse_other (s t : str) (u : url) : other_url s u -> url_text u t -> other_url t u.
Proof. intros U T. now apply (reparse_printable s t u U T). Qed.
Lemma other_line (s m : str) (u : url) : other_url s u -> no_lf m -> line_request m u.
Proof.
  intros S M. destruct (url_text_exists u) as (t & T & _). destruct (reparse_printable s t u S T) as (_ & V).
  assert (N : u_has_authority u = false -> no_authority u).
  { destruct S as (? & ? & ? & ? & ? & _ & _ & _ & _ & _ & _ & _ & _ & _ & _ & [(? & ? & ? & ? & _ & H & _)|[(? & _ & _ & H & _)|(_ & H & _)]]); intro E; [congruence|exact H|exact H]. }
  destruct T as (a & q & f & Ta & Pq & Pf & ->). unfold authority_text in Ta.
  assert (L : forall x, Forall (fun c => (32 <= N_of_ascii c <= 126)%N) x -> no_lf x).
  { intros x F I. rewrite Forall_forall in F. apply F in I. cbn in I. lia. }
  rewrite !Forall_app in V. destruct V as (V1 & _ & Va & V4 & V5 & V6).
  split; [exact M|]. split; [now apply L|].
  assert (X : no_lf (u_username u) /\ no_lf_opt (u_password u) /\ no_lf_opt (u_host u)).
  { destruct (u_has_authority u).
    - destruct Ta as (ui & h & p & U & H & P & ->). rewrite !Forall_app in Va. destruct Va as (_ & V2 & V3 & _). rewrite <- !and_assoc. split.
      + destruct U as [|n Nn|n pw]; cbn [no_lf_opt]; [split; [easy|exact I]| |]; rewrite !Forall_app in V2; split; try exact I; apply L; tauto.
      + destruct (u_host u); cbn [no_lf_opt]; [|exact I]. subst h. now apply L.
    - destruct (N eq_refl) as (_ & -> & -> & -> & _). cbn. auto. }
  destruct X as (X1 & X2 & X3). split; [exact X1|]. split; [exact X2|]. split; [exact X3|]. split; [now apply L|split].
  - destruct (u_query u); cbn [no_lf_opt prefixed] in *; [|exact I]. subst q. apply L. now inversion V5.
  - destruct (u_fragment u); cbn [no_lf_opt prefixed] in *; [|exact I]. subst f. apply L. now inversion V6.
Qed.

(** ** All schemes but "file" *)
Lemma no_file : file_laws (fun _ => Err UrlOther).
Proof. intro rest. split; [discriminate|discriminate]. Qed.
Lemma any_iff (hp : host_parser) (fp : str -> result url url_error) (s : str) (u : url) : file_laws fp ->
  (url_parse hp (parse_other fp) s = Ok u /\ u_scheme u <> $"file" <-> any_url hp s u).
Proof.
  intro K. unfold any_url. split.
  - intros (H & N). destruct (default_port (u_scheme u)) as [d|] eqn:D.
    + left. apply (parser_spec hp (parse_other fp)); [now apply other_laws|]. split; [exact H|]. apply special_iff. congruence.
    + right. apply (other_parse_iff hp fp _ _ K). split; [exact H|]. split; [|exact N]. rewrite special_iff. congruence.
  - intros [H|H].
    + apply (parser_spec hp (parse_other fp)) in H; [|now apply other_laws]. destruct H as (H & S). split; [exact H|]. intros E. rewrite E in S. apply special_iff in S. now apply S.
    + apply (other_parse_iff hp fp _ _ K) in H. tauto.
Qed.
Lemma any_again (hp : host_parser) (s t : str) (u : url) : host_laws hp -> any_url hp s u -> url_text u t -> any_url hp t u.
Proof. intros K [H|H] T; [left; now apply (reparse hp s)|right; now apply (reparse_other s)]. Qed.
Lemma any_line (hp : host_parser) (s m : str) (u : url) : host_laws hp -> any_url hp s u -> no_lf m -> line_request m u.
Proof. intros K [H|H] M; [now apply (special_line hp s)|now apply (other_line s)]. Qed.
Lemma any_fun (hp : host_parser) (s : str) (u v : url) : any_url hp s u -> any_url hp s v -> u = v.
Proof. intros U V. apply (any_iff hp _ _ _ no_file) in U, V. destruct U as [U _], V as [V _]. congruence. Qed.
Lemma any_determines (hp : host_parser) (s1 s2 t : str) (u1 u2 : url) : host_laws hp -> any_url hp s1 u1 -> any_url hp s2 u2 -> url_text u1 t -> url_text u2 t -> u1 = u2.
Proof. intros K S1 S2 T1 T2. apply (any_fun hp t); [now apply (any_again hp s1)|now apply (any_again hp s2)]. Qed.
Lemma read_any (trace : bool) (hp : host_parser) (fp : str -> result url url_error) (s : str) (r : mock) : file_laws fp ->
  from_reader trace (url_parse hp (parse_other fp)) s = Done (Some r) -> u_scheme (mr_url r) <> $"file" -> exists t, any_url hp t (mr_url r).
Proof.
  intros K H N. apply read_accepts in H. destruct H as (_ & _ & [U|(_ & v & _ & _ & U)]); eexists; apply (any_iff hp fp _ _ K); split; eassumption.
Qed.
Lemma read_same_any (t1 t2 : bool) (hp : host_parser) (fp : str -> result url url_error) (s1 s2 : str) (r1 r2 : mock) (p1 p2 : params) : host_laws hp -> file_laws fp ->
  from_reader t1 (url_parse hp (parse_other fp)) s1 = Done (Some r1) -> u_scheme (mr_url r1) <> $"file" ->
  from_reader t2 (url_parse hp (parse_other fp)) s2 = Done (Some r2) -> u_scheme (mr_url r2) <> $"file" ->
  mr_derive r1 (derived_named $"@target-uri" p1) = mr_derive r2 (derived_named $"@target-uri" p2) ->
  mr_url r1 = mr_url r2 /\ forall d, it_bare (dc_item d) <> BString $"@method" -> mr_derive r1 (CDerived d) = mr_derive r2 (CDerived d).
Proof.
  intros K KF H1 N1 H2 N2 E. destruct (read_any _ _ _ _ _ KF H1 N1) as (x1 & U1). destruct (read_any _ _ _ _ _ KF H2 N2) as (x2 & U2).
  destruct (mr_line r1 p1) as (_ & _ & _ & _ & D1 & _). destruct (mr_line r2 p2) as (_ & _ & _ & _ & D2 & _). cbv zeta in D1, D2.
  destruct (url_text_exists (mr_url r1)) as (t & T & _). assert (T' : url_text (mr_url r2) t) by (apply D2; rewrite <- E; now apply D1).
  assert (Eu : mr_url r1 = mr_url r2) by exact (any_determines hp x1 x2 t _ _ K U1 U2 T T'). split; [exact Eu|]. intros d N. unfold mr_derive. rewrite Eu. now apply not_method.
Qed.

(** ** Signatures that cover @target-uri *)
Lemma any_uri {R} (cr : client_request_like R) (L : client_laws cr) (r r' : R) (c : signing_config) (env : sign_env) (s : mock) (vc : verifying_config)
  (venv : verify_env) (kid : str) (u : url) (ps : params) (hp : host_parser) (t1 t2 : str) : host_laws hp ->
  sys_clock_ok (se_sys env) -> sign cr r c env = Done (r', Ok tt) ->
  Forall component_rep (sc_components c) -> sc_nonce c <> Some [] ->
  mr_derive s (CHeader $"signature-input") = rl_derive (cr_rl cr) r' (CHeader $"signature-input") ->
  mr_derive s (CHeader $"signature") = rl_derive (cr_rl cr) r' (CHeader $"signature") ->
  ~ In "="%char (sc_label c) -> plain (sc_label c) ->
  (forall m, let sig := sg_sign (sc_signature c) (se_rnd env) m in plain sig /\ clean_signature sig) ->
  (forall q v, In q (sc_components c) -> rl_derive (cr_rl cr) r' q = Done (Some v) -> ~ is_query_params q -> no_lf v) ->
  (forall q v, In q (sc_components c) -> rl_derive (cr_rl cr) r q = Done (Some v) -> ~ is_query_params q -> no_lf v) ->
  no_lf (mr_method s) -> (forall q, In q (sc_components c) -> ~ is_query_params q) ->
  (forall t, rl_derive (cr_rl cr) r' (derived_named $"@target-uri" ps) = Done (Some t) <-> url_text u t) ->
  any_url hp t1 u -> any_url hp t2 (mr_url s) -> In (derived_named $"@target-uri" ps) (sc_components c) ->
  verify mr_server s vc venv = Done (Ok (tt, kid)) ->
  mr_url s = u
  \/ exists m1 m2 k, two_bases (signed_view (cr_rl cr) r r') (mr_derive s) c (seconds (se_sys env)) m1 m2
      /\ In k (vc_keys vc (sc_key_id c)) /\ vf_verify k m2 (sg_sign (sc_signature c) (se_rnd env) m1) = true.
Proof.
  intros K Sy Sg Rp N Hi Hs Eq Pl Cl Nl' Nl Ml Nq Hu U1 U2 Hin V.
  assert (Lf : same_line_feeds (signed_view (cr_rl cr) r r') (mr_derive s) (sc_components c)).
  { assert (Z : forall v, no_lf v -> lf_count v = 0%nat).
    { induction v as [|x v IH]; intro F; [reflexivity|]. unfold lf_count in *. cbn [count_occ]. destruct (ascii_dec x ch_lf) as [E|E]; [exfalso; apply F; now left|].
      apply IH. intro I. apply F. now right. }
    intros q v w Hq D1 D2. rewrite !Z; [reflexivity| |].
    - apply (mr_no_lf s q w); [now apply (any_line hp t2)|exact (Nq q Hq)|exact D2].
    - assert (D : rl_derive (cr_rl cr) r q = Done (Some v) \/ rl_derive (cr_rl cr) r' q = Done (Some v)).
      { destruct q as [d|h]; unfold signed_view in D1; [now right|]. destruct (list_eq_dec _ _ _); [now left|]. destruct (list_eq_dec _ _ _); [now left|now right]. }
      destruct D as [D|D]; [exact (Nl q v Hq D (Nq q Hq))|exact (Nl' q v Hq D (Nq q Hq))]. }
  destruct (tamper_values cr L r r' c env Sy Sg Rp N mr_server mr_server_laws s vc venv Hi Hs tt kid Eq Pl Cl Lf V) as [H|H]; [left|right; exact H].
  destruct (url_text_exists u) as (t & T & _).
  assert (D : mr_derive s (derived_named $"@target-uri" ps) = Done (Some t)). { apply (H _ _ Hin). unfold signed_view, derived_named. now apply Hu. }
  destruct (mr_line s ps) as (_ & _ & _ & _ & D2 & _). apply D2 in D. now apply (any_determines hp t2 t1 t).
Qed.
Lemma any_rq (cr : client_request_like rq) (r r' : rq) (c : signing_config) (env : sign_env) (s : mock) (vc : verifying_config)
  (venv : verify_env) (kid : str) (ps : params) (hp : host_parser) (t1 t2 : str) : cr = rq_async \/ cr = rq_blocking -> host_laws hp ->
  sys_clock_ok (se_sys env) -> sign cr r c env = Done (r', Ok tt) ->
  Forall component_rep (sc_components c) -> sc_nonce c <> Some [] ->
  mr_derive s (CHeader $"signature-input") = rq_derive r' (CHeader $"signature-input") ->
  mr_derive s (CHeader $"signature") = rq_derive r' (CHeader $"signature") ->
  ~ In "="%char (sc_label c) -> plain (sc_label c) ->
  (forall m, let sig := sg_sign (sc_signature c) (se_rnd env) m in plain sig /\ clean_signature sig) ->
  no_lf (rq_method r) -> no_lf (mr_method s) -> (forall q, In q (sc_components c) -> ~ is_query_params q) ->
  any_url hp t1 (rq_url r) -> any_url hp t2 (mr_url s) -> In (derived_named $"@target-uri" ps) (sc_components c) ->
  verify mr_server s vc venv = Done (Ok (tt, kid)) ->
  mr_url s = rq_url r
  \/ exists m1 m2 k, two_bases (signed_view rq_rl r r') (mr_derive s) c (seconds (se_sys env)) m1 m2
      /\ In k (vc_keys vc (sc_key_id c)) /\ vf_verify k m2 (sg_sign (sc_signature c) (se_rnd env) m1) = true.
Proof.
  intros Hc K Sy Sg Rp N Hi Hs Eq Pl Cl Mr Ms Nq U1 U2 Hin V. assert (L : client_laws cr) by (destruct Hc as [-> | ->]; [exact rq_async_laws|exact rq_blocking_laws]).
  assert (E : cr_rl cr = rq_rl) by (destruct Hc as [-> | ->]; reflexivity).
  destruct (rq_frame cr r r' c env (Ok tt) Hc Sy Sg) as (F1 & F2 & _).
  assert (X : forall r0 q v, rq_method r0 = rq_method r -> rq_url r0 = rq_url r -> rq_derive r0 q = Done (Some v) -> ~ is_query_params q -> no_lf v).
  { intros r0 q v E1 E2 D Q. apply (rq_no_lf r0 q v); [|exact Q|exact D]. rewrite E1, E2. now apply (any_line hp t1). }
  pose proof (any_uri cr L r r' c env s vc venv kid (rq_url r) ps hp t1 t2) as A. rewrite E in A. cbn [rl_derive rq_rl] in A. 
  apply A; try assumption; [intros q v _ D Q; now apply (X r' q v)|intros q v _ D Q; now apply (X r q v)|].
  destruct (rq_line r' ps) as (_ & _ & _ & _ & D & _). cbv zeta in D. rewrite F2 in D. exact D.
Qed.
Lemma any_mr (r r' : mock) (c : signing_config) (env : sign_env) (s : mock) (vc : verifying_config)
  (venv : verify_env) (kid : str) (ps : params) (hp : host_parser) (t1 t2 : str) : host_laws hp ->
  sys_clock_ok (se_sys env) -> sign mr_client r c env = Done (r', Ok tt) ->
  Forall component_rep (sc_components c) -> sc_nonce c <> Some [] ->
  mr_derive s (CHeader $"signature-input") = mr_derive r' (CHeader $"signature-input") ->
  mr_derive s (CHeader $"signature") = mr_derive r' (CHeader $"signature") ->
  ~ In "="%char (sc_label c) -> plain (sc_label c) ->
  (forall m, let sig := sg_sign (sc_signature c) (se_rnd env) m in plain sig /\ clean_signature sig) ->
  no_lf (mr_method r) -> no_lf (mr_method s) -> (forall q, In q (sc_components c) -> ~ is_query_params q) ->
  any_url hp t1 (mr_url r) -> any_url hp t2 (mr_url s) -> In (derived_named $"@target-uri" ps) (sc_components c) ->
  verify mr_server s vc venv = Done (Ok (tt, kid)) ->
  mr_url s = mr_url r
  \/ exists m1 m2 k, two_bases (signed_view mr_rl r r') (mr_derive s) c (seconds (se_sys env)) m1 m2
      /\ In k (vc_keys vc (sc_key_id c)) /\ vf_verify k m2 (sg_sign (sc_signature c) (se_rnd env) m1) = true.
Proof.
  intros K Sy Sg Rp N Hi Hs Eq Pl Cl Mr Ms Nq U1 U2 Hin V.
  destruct (mock_frame r r' c env (Ok tt) Sy Sg) as (_ & F1 & F2 & _).
  assert (X : forall r0 q v, mr_method r0 = mr_method r -> mr_url r0 = mr_url r -> mr_derive r0 q = Done (Some v) -> ~ is_query_params q -> no_lf v).
  { intros r0 q v E1 E2 D Q. apply (mr_no_lf r0 q v); [|exact Q|exact D]. rewrite E1, E2. now apply (any_line hp t1). }
  apply (any_uri mr_client mr_client_laws r r' c env s vc venv kid (mr_url r) ps hp t1 t2); try assumption;
    [intros q v _ D Q; now apply (X r' q v)|intros q v _ D Q; now apply (X r q v)|].
  destruct (mr_line r' ps) as (_ & _ & _ & _ & D & _). cbv zeta in D. rewrite F2 in D. exact D.
Qed.
