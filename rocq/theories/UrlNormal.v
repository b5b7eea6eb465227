(** The text of a parsed URL stands for that URL. *)
From Verif Require Export UrlFacts.
From Verif Require Import ReadFacts LineFacts.

Lemma set_plain (set : string) :
  forallb (fun c => implb (existsb (Ascii.eqb c) (list_ascii_of_string set)) (negb (Ascii.eqb c "%" || is_digit c || is_alpha c))) all_bytes = true ->
  forall c, one_of set c -> c <> "%"%char /\ ~ digit c /\ ~ letter c.
Proof.
  intros H c O. pose proof (byte_all _ H c) as E. cbv beta in E. unfold one_of in O.
  assert (X : existsb (Ascii.eqb c) (list_ascii_of_string set) = true) by (apply existsb_exists; exists c; now rewrite Ascii.eqb_refl).
  rewrite X in E. cbn [implb] in E. apply negb_true_iff, orb_false_iff in E. destruct E as (E & A). apply orb_false_iff in E. destruct E as (P & D).
  apply Ascii.eqb_neq in P. split; [exact P|]. split.
  - intro G. unfold is_digit, in_range, code in D. unfold digit in G. lia.
  - intro G. apply letter_iff in G. congruence.
Qed.
Lemma path_plain : forall c, one_of path_set c -> c <> "%"%char /\ ~ digit c /\ ~ letter c. Proof. apply set_plain. vm_compute. reflexivity. Qed.
Lemma userinfo_plain : forall c, one_of userinfo_set c -> c <> "%"%char /\ ~ digit c /\ ~ letter c. Proof. apply set_plain. vm_compute. reflexivity. Qed.
Lemma query_plain : forall c, one_of query_set c -> c <> "%"%char /\ ~ digit c /\ ~ letter c. Proof. apply set_plain. vm_compute. reflexivity. Qed.
Lemma fragment_plain : forall c, one_of fragment_set c -> c <> "%"%char /\ ~ digit c /\ ~ letter c. Proof. apply set_plain. vm_compute. reflexivity. Qed.

Lemma hex_no_slash (v : N) : (v < 16)%N -> ~ slash (hex_upper v).
Proof.
  intro V. assert (X : forallb (fun v => negb (url_slash (hex_upper (N.of_nat v)))) (seq 0 16) = true) by (vm_compute; reflexivity).
  rewrite forallb_forall in X. specialize (X (N.to_nat v)). rewrite N2Nat.id in X. apply slash_false, negb_true_iff, X, in_seq. lia.
Qed.
Lemma encoded_no_slash (set : string) (s t : str) : encoded set s t -> Forall (fun c => ~ slash c) s -> Forall (fun c => ~ slash c) t.
Proof.
  induction 1 as [|c s t S E IH|c s t S E IH]; intro F; [constructor| |]; inversion F as [|x y N F']; subst; specialize (IH F').
  - now constructor.
  - pose proof (N_ascii_bounded c) as B. constructor; [now apply slash_false|]. constructor; [|constructor; [|exact IH]]; apply hex_no_slash.
    + apply N.div_lt_upper_bound; lia.
    + apply N.mod_lt. lia.
Qed.
Lemma segments_parts (s : str) (l : list str) : segments s l -> Forall (Forall (fun c => ~ slash c)) l.
Proof. induction 1; auto. Qed.
Lemma reached_parts (l d : list str) : reached l d -> Forall (fun x => In x l /\ ~ dot x /\ ~ dots x) d.
Proof.
  assert (W : forall (l : list str) x y d, Forall (fun x => In x l /\ ~ dot x /\ ~ dots x) d -> y = l ++ [x] -> Forall (fun x => In x y /\ ~ dot x /\ ~ dots x) d).
  { intros l0 x y d0 H ->. eapply Forall_impl; [|exact H]. cbn. intros a (I & N). split; [apply in_or_app; now left|exact N]. }
  induction 1 as [|l d x _ IH N1 N2|l d x _ IH D|l d y x _ IH D N|l d y x _ IH D N|l x _ IH D]; [constructor| | | | |].
  - apply Forall_app. split; [now apply (W l x _ d)|]. constructor; [|constructor]. split; [apply in_or_app; right; now left|auto].
  - now apply (W l x _ d).
  - apply Forall_app in IH. destruct IH as [IH _]. now apply (W l x _ d).
  - now apply (W l x _ (d ++ [y])).
  - constructor.
Qed.
Lemma reached_plain (d : list str) : Forall (fun x => ~ dot x /\ ~ dots x) d -> reached d d.
Proof.
  induction d as [|x d IH] using rev_ind; intro F; [constructor|]. apply Forall_app in F. destruct F as [F G]. inversion G as [|y z [N1 N2] _]; subst.
  apply reached_enter; auto.
Qed.
Lemma segments_plain (d : list str) (x : str) : Forall (Forall (fun c => ~ slash c)) d -> Forall (fun c => ~ slash c) x ->
  segments (List.concat (map (fun s => s ++ $"/") d) ++ x) (d ++ [x]).
Proof.
  intros F X. induction F as [|a d A _ IH]; cbn [map List.concat app]; [now constructor|].
  rewrite <- !app_assoc. cbn [s2b list_ascii_of_string app]. apply segments_more; [exact A|now left|exact IH].
Qed.
Lemma Forall2_refl {A} (P : A -> A -> Prop) (l : list A) : Forall (fun x => P x x) l -> Forall2 P l l.
Proof. induction 1; now constructor. Qed.
Lemma nil_no_dot : ~ dot [] /\ ~ dots [].
Proof.
  split; [unfold dot; cbn [In]; intuition discriminate|]. intros (a & b & A & _ & E). symmetry in E. apply app_eq_nil in E. destruct E as [-> _].
  revert A. unfold dot. cbn [In]. intuition discriminate.
Qed.
Lemma slash_path_char : path_char "/".
Proof. split; [|discriminate]. apply staysb_iff. reflexivity. Qed.
Lemma concat_chars (P : ascii -> Prop) (d : list str) : P "/"%char -> Forall (Forall P) d -> Forall P (List.concat (map (fun s => s ++ $"/") d)).
Proof.
  intro Q. induction 1 as [|x d X _ IH]; cbn [map List.concat]; [constructor|]. repeat (apply Forall_app; split); auto. now constructor.
Qed.
Lemma normal_path (d : list str) (x : str) :
  Forall (fun y => Forall path_char y /\ Forall (fun c => ~ slash c) y /\ ~ dot y /\ ~ dots y) (d ++ [x]) ->
  path_of (List.concat (map (fun s => s ++ $"/") d) ++ x) (directory_text d ++ x).
Proof.
  intro F. apply Forall_app in F. destruct F as [F G]. inversion G as [|y z (X1 & X2 & X3 & X4) _]; subst.
  exists (d ++ [x]), (d ++ [x]), d. split; [|split].
  - apply segments_plain; [|exact X2]. eapply Forall_impl; [|exact F]. cbn. tauto.
  - apply Forall2_refl, Forall_app. split.
    + eapply Forall_impl; [|exact F]. cbn. intros a (H & _). apply stays_encoded. eapply Forall_impl; [|exact H]. intros c []. assumption.
    + constructor; [|constructor]. apply stays_encoded. eapply Forall_impl; [|exact X1]. intros c []. assumption.
  - right. exists d, x. split; [reflexivity|]. split; [|auto]. apply reached_plain. eapply Forall_impl; [|exact F]. cbn. tauto.
Qed.
Lemma path_normal (s t : str) : path_of s t -> exists t', t = "/"%char :: t' /\ path_of t' t /\ normal_target t'.
Proof.
  intros (segs & l & d & S & F & H). apply segments_parts in S.
  assert (L : Forall (fun y => Forall path_char y /\ Forall (fun c => ~ slash c) y) l).
  { clear H. revert S. induction F as [|a b segs l E _ IH]; intro S; [constructor|]. inversion S as [|p q A S']; subst. constructor; [|auto].
    pose proof (encoded_no_slash _ _ _ E A) as N. split; [|exact N]. apply (encoded_stays path_set a b path_plain) in E.
    rewrite Forall_forall in *. intros c I. split; [now apply E|]. intros ->. apply (N _ I). now right. }
  assert (K : forall l' d x, Forall (fun y => Forall path_char y /\ Forall (fun c => ~ slash c) y) (l' ++ [x]) -> reached l' d -> ~ dot x -> ~ dots x ->
    exists t', directory_text d ++ x = "/"%char :: t' /\ path_of t' (directory_text d ++ x) /\ normal_target t').
  { intros l' d' x L' R N1 N2. exists (List.concat (map (fun s => s ++ $"/") d') ++ x). split; [reflexivity|].
    apply Forall_app in L'. destruct L' as [L1 L2]. inversion L2 as [|p q (X1 & X2) _]; subst. apply reached_parts in R. rewrite Forall_forall in R, L1.
    assert (G : Forall (fun y => Forall path_char y /\ Forall (fun c => ~ slash c) y /\ ~ dot y /\ ~ dots y) d').
    { apply Forall_forall. intros y I. destruct (R y I) as (J & M1 & M2). destruct (L1 y J). auto. }
    split.
    - apply normal_path, Forall_app. split; [exact G|]. constructor; [auto|constructor].
    - split.
      + apply Forall_app. split; [|exact X1]. apply concat_chars; [apply slash_path_char|]. eapply Forall_impl; [|exact G]. cbn. tauto.
      + assert (Sg : segments (List.concat (map (fun s => s ++ $"/") d') ++ x) (d' ++ [x])).
        { apply segments_plain; [|exact X2]. eapply Forall_impl; [|exact G]. cbn. tauto. }
        intros sg S0. apply segments_iff in S0, Sg. rewrite S0, <- Sg. apply Forall_app. split; [|now constructor].
        eapply Forall_impl; [|exact G]. cbn. tauto. }
  destruct H as [(R & _ & ->)|(l' & x & -> & R & N1 & N2 & ->)].
  - destruct nil_no_dot as [N1 N2]. destruct (K l d [] ) as (t' & E & P & C); [|exact R|exact N1|exact N2|].
    + apply Forall_app. split; [exact L|]. constructor; [split; constructor|constructor].
    + rewrite app_nil_r in E, P. exists t'. auto.
  - now apply (K l').
Qed.

(** The whole text. *)
Lemma port_again (sch : str) (pt t : str) (o : option N) : port_of sch pt o -> port_text o t -> port_of sch t o.
Proof.
  destruct 1 as [| |ds p D V P|ds p D V L P]; cbn [port_text]; try (intros ->; constructor).
  intros (x & (N & X & _) & ->). now apply (port_given sch x p).
Qed.
Lemma letter_visible (c : ascii) : letter c -> (33 <= N_of_ascii c <= 126)%N.
Proof. unfold letter. lia. Qed.
Lemma special_shape (s : str) : special s -> scheme_text s /\ Forall2 lower_of s s /\ Forall (fun c => (33 <= N_of_ascii c <= 126)%N) s.
Proof.
  intros (p & P). assert (X : parse_scheme (s ++ $":") = Some (s, [])).
  { destruct P as [E|[E|[E|[E|[E|[]]]]]]; injection E as <- <-; reflexivity. }
  apply parse_scheme_iff in X. destruct X as (sch & E & T & L).
  assert (E' : s = sch) by (apply app_inj_tail in E; tauto). rewrite <- E' in *.
  split; [exact T|]. split; [exact L|]. destruct P as [Q|[Q|[Q|[Q|[Q|[]]]]]]; injection Q as <- <-; repeat constructor; cbn; lia.
Qed.
Lemma stays_visible (set : string) (s : str) : Forall (stays set) s -> Forall (fun c => (33 <= N_of_ascii c <= 126)%N) s.
Proof. apply Forall_impl. now intros c []. Qed.
Lemma plain_input (t : str) : Forall (fun c => ~ low c) t -> url_input t t.
Proof.
  intro F. exists [], t, []. rewrite app_nil_r. split; [reflexivity|]. split; [constructor|]. split; [constructor|]. rewrite Forall_forall in F.
  split; [|split].
  - intros c x ->. now apply (F c (or_introl eq_refl)).
  - intros c x ->. apply F. apply in_or_app. right. now left.
  - apply without_iff. symmetry. rewrite <- Forall_forall in F. induction F as [|c t C _ IH]; [reflexivity|]. cbn [filter]. unfold low in C. unfold tab_or_newline, code.
    replace ((N_of_ascii c =? 9) || (N_of_ascii c =? 10) || (N_of_ascii c =? 13))%N with false by lia. cbn [negb]. now rewrite IH at 1.
Qed.
Lemma visible_input (t : str) : Forall (fun c => (33 <= N_of_ascii c <= 126)%N) t -> url_input t t.
Proof. intro F. apply plain_input. eapply Forall_impl; [|exact F]. unfold low. cbn. lia. Qed.
Definition user_char (c : ascii) : Prop := stays userinfo_set c.
Lemma user_char_props (c : ascii) : user_char c -> ~ slash c /\ c <> "?"%char /\ c <> "#"%char /\ c <> "@"%char /\ c <> ":"%char.
Proof.
  intros (_ & N). unfold one_of in N. repeat split; [intros [-> | ->]| | | |]; try intros ->; apply N; cbn; tauto.
Qed.
Lemma credentials_chars (c n : str) (p : option str) : credentials c n p ->
  Forall user_char n /\ match p with Some x => Forall user_char x /\ x <> [] | None => True end.
Proof.
  destruct 1 as [n n' _ E|n n' _ E|n n' p p' _ E N P]; apply (encoded_stays _ _ _ userinfo_plain) in E; (split; [exact E|]); try exact I.
  split; [now apply (encoded_stays _ _ _ userinfo_plain) in P|]. intros ->. inversion P. now subst.
Qed.
Lemma user_no (c : ascii) (s : str) : (forall x, user_char x -> x <> c) -> Forall user_char s -> ~ In c s.
Proof. intros H F I. rewrite Forall_forall in F. now apply (H c (F c I)). Qed.
Lemma authority_again (hp : host_parser) (sch a : str) (u : url) : host_laws hp -> authority_of hp sch a u -> u_has_authority u = true ->
  forall t, authority_text u t -> exists a', t = $"//" ++ a' /\ authority_of hp sch a' u
    /\ Forall (fun c => ~ slash c /\ c <> "?"%char /\ c <> "#"%char) a' /\ Forall (fun c => (33 <= N_of_ascii c <= 126)%N) a'.
Proof.
  intros K A Ha t T. unfold authority_text in T. rewrite Ha in T. destruct T as (ui & h' & p' & U & H & P & ->).
  exists (ui ++ h' ++ p'). split; [reflexivity|].
  assert (X : hp h' = u_host u /\ u_host u <> None /\ (exists pt, port_of sch pt (u_port u)) /\ (exists h, hp h = Some h')
              /\ Forall user_char (u_username u) /\ match u_password u with Some x => Forall user_char x /\ x <> [] | None => True end).
  { destruct A as [h pt u A N W _ Hh Hn Q|c h pt u C A _ Hh Hn Q].
    - destruct (u_host u) as [x|] eqn:E; [|contradiction]. subst h'. rewrite (hl_again hp K h x Hh), N, W. repeat split; eauto; discriminate.
    - destruct (u_host u) as [x|] eqn:E; [|contradiction]. subst h'. rewrite (hl_again hp K h x Hh). apply credentials_chars in C. destruct C. repeat split; eauto; discriminate. }
  clear A. destruct X as (Hh & Hn & (pt & Q) & (h & Eh) & Cn & Cp).
  destruct (hl_text hp K h h' Eh) as (Ne & Ch). pose proof (hl_brackets hp K h h' Eh) as Br.
  pose proof (port_again sch pt p' (u_port u) Q P) as Q'. 
  assert (Pc : Forall (fun c => ~ slash c /\ c <> "?"%char /\ c <> "#"%char /\ c <> "@"%char /\ (33 <= N_of_ascii c <= 126)%N) p').
  { destruct (u_port u) as [n|]; cbn [port_text] in P; [|subst p'; constructor]. destruct P as (ds & D & ->). apply digits_iff in D.
    constructor; [repeat split; try discriminate; try (intros [E|E]; discriminate); cbn; lia|].
    pose proof (dec_of_N_digits n) as G. rewrite <- D in G. rewrite forallb_forall in G. apply Forall_forall. intros c I. apply G in I.
    unfold is_digit, in_range, code in I.
    assert (J : (48 <= N_of_ascii c <= 57)%N) by lia. repeat split; try (intros ->; cbn in J; lia); try lia. intros [-> | ->]; cbn in J; lia. }
  assert (Hc : Forall (fun c => ~ slash c /\ c <> "?"%char /\ c <> "#"%char /\ c <> "@"%char /\ (33 <= N_of_ascii c <= 126)%N) h').
  { eapply Forall_impl; [|exact Ch]. cbn. intros c (V & S & O). split; [exact S|]. unfold one_of in O. repeat split; try lia; intros ->; apply O; cbn; tauto. }
  assert (Na : ~ In "@"%char (h' ++ p')).
  { intro I. apply in_app_or in I. rewrite Forall_forall in Hc, Pc. destruct I as [I|I]; [apply Hc in I|apply Pc in I]; tauto. }
  assert (Ht : host_text h' p') by (split; [exact Ne|exists false; auto]).
  assert (Uc : forall s, Forall user_char s -> Forall (fun c => ~ slash c /\ c <> "?"%char /\ c <> "#"%char) s /\ Forall (fun c => (33 <= N_of_ascii c <= 126)%N) s).
  { intros s F. split; eapply Forall_impl; try exact F; cbn; intros c C; [apply user_char_props in C; tauto|now destruct C]. }
  assert (Fs : Forall (fun c => ~ slash c /\ c <> "?"%char /\ c <> "#"%char) (h' ++ p')).
  { apply Forall_app. split; eapply Forall_impl; [|exact Hc| |exact Pc]; cbn; tauto. }
  assert (Fv : Forall (fun c => (33 <= N_of_ascii c <= 126)%N) (h' ++ p')).
  { apply Forall_app. split; eapply Forall_impl; [|exact Hc| |exact Pc]; cbn; tauto. }
  assert (Nc : forall s, Forall user_char s -> ~ In ":"%char s).
  { intros s F. apply (user_no ":" s); [|exact F]. intros x X. apply user_char_props in X. tauto. }
  destruct (u_password u) as [pw|] eqn:Ep.
  - destruct Cp as (Cp & Np). inversion U; subst. rewrite <- !app_assoc. cbn [s2b list_ascii_of_string app].
    destruct (Uc _ Cn) as (U1 & U2). destruct (Uc _ Cp) as (U3 & U4). split; [|split].
    + replace (u_username u ++ ":"%char :: pw ++ "@"%char :: h' ++ p') with ((u_username u ++ ":"%char :: pw) ++ "@"%char :: h' ++ p') by (rewrite <- app_assoc; reflexivity).
      apply authority_user; try assumption. rewrite Ep. apply cred_both; try assumption; [now apply Nc|now apply stays_encoded|now apply stays_encoded].
    + apply Forall_app. split; [exact U1|]. constructor; [repeat split; try discriminate; intros [E|E]; discriminate|]. apply Forall_app. split; [exact U3|].
      constructor; [repeat split; try discriminate; intros [E|E]; discriminate|exact Fs].
    + apply Forall_app. split; [exact U2|]. constructor; [cbn; lia|]. apply Forall_app. split; [exact U4|]. constructor; [cbn; lia|exact Fv].
  - destruct (u_username u) as [|c n] eqn:En.
    + assert (ui = []) as -> by now inversion U. cbn [app]. split; [|now split]. apply authority_plain; assumption.
    + assert (Eu : ui = (c :: n) ++ $"@") by now inversion U. subst ui. rewrite <- app_assoc. cbn [s2b list_ascii_of_string].
      destruct (Uc _ Cn) as (U1 & U2). split; [|split].
      * change ((c :: n) ++ ["@"%char] ++ h' ++ p') with ((c :: n) ++ "@"%char :: h' ++ p'). apply authority_user; try assumption. rewrite En, Ep.
        apply cred_name; [now apply Nc|now apply stays_encoded].
      * apply Forall_app. split; [exact U1|]. constructor; [repeat split; try discriminate; intros [E|E]; discriminate|exact Fs].
      * apply Forall_app. split; [exact U2|]. constructor; [cbn; lia|exact Fv].
Qed.
Lemma tail_again (c : ascii) (set : string) (o : option str) (t t' : str) : (forall c, one_of set c -> c <> "%"%char /\ ~ digit c /\ ~ letter c) ->
  (33 <= N_of_ascii c <= 126)%N -> tail_of c set o t -> prefixed c o t' ->
  tail_of c set o t' /\ Forall (fun c => (33 <= N_of_ascii c <= 126)%N) t' /\ (forall d, d <> c -> one_of set d -> ~ In d t').
Proof.
  intros K V T P. destruct o as [e|]; cbn [tail_of prefixed] in *.
  - destruct T as (s & _ & E). subst t'. apply (encoded_stays _ _ _ K) in E. split; [|split].
    + exists e. split; [reflexivity|now apply stays_encoded].
    + constructor; [exact V|now apply stays_visible in E].
    + intros d N O [->|I]; [contradiction|]. rewrite Forall_forall in E. apply E in I. destruct I as [_ I]. contradiction.
  - subst t'. split; [reflexivity|]. split; [constructor|]. auto.
Qed.
Lemma reparse_visible (hp : host_parser) (s t : str) (u : url) : host_laws hp -> special_url hp s u -> url_text u t ->
  special_url hp t u /\ Forall (fun c => (33 <= N_of_ascii c <= 126)%N) t.
Proof.
  intros K (s' & sch & sl & auth & path & q & f & _ & _ & _ & _ & Sp & _ & _ & A & Ha & _ & P & Tq & _ & Tf) (a & q' & f' & Ta & Pq & Pf & ->).
  destruct (authority_again hp (u_scheme u) auth u K A Ha a Ta) as (a' & -> & A' & F1 & F2).
  destruct (special_shape (u_scheme u) Sp) as (S1 & S2 & S3).
  destruct (tail_again "?" query_set (u_query u) q q' query_plain) as (T1 & T2 & T3); [cbn; lia|exact Tq|exact Pq|].
  destruct (tail_again "#" fragment_set (u_fragment u) f f' fragment_plain) as (G1 & G2 & _); [cbn; lia|exact Tf|exact Pf|].
  assert (X : exists p', u_path u = "/"%char :: p' /\ path_of p' (u_path u) /\ Forall path_char p').
  { destruct P as [(_ & ->)|(c & path' & _ & _ & P)]; [|apply path_normal in P; destruct P as (t' & ? & ? & []); eauto].
    exists []. split; [reflexivity|]. split; [now apply path_of_iff|constructor]. }
  destruct X as (p' & E & Pp & Cp).
  assert (Cv : Forall (fun c => (33 <= N_of_ascii c <= 126)%N) (u_path u)).
  { rewrite E. constructor; [cbn; lia|]. eapply Forall_impl; [|exact Cp]. now intros c ((V & _) & _). }
  assert (V : Forall (fun c => (33 <= N_of_ascii c <= 126)%N) (u_scheme u ++ $":" ++ ($"//" ++ a') ++ u_path u ++ q' ++ f')).
  { apply Forall_app. split; [exact S3|]. apply Forall_app. split; [repeat constructor; cbn; lia|].
    rewrite <- app_assoc. apply Forall_app. split; [repeat constructor; cbn; lia|]. apply Forall_app. split; [exact F2|]. apply Forall_app. split; [exact Cv|]. apply Forall_app. now split. }
  split; [|exact V].
  exists (u_scheme u ++ $":" ++ ($"//" ++ a') ++ u_path u ++ q' ++ f'), (u_scheme u), $"//", a', (u_path u), q', f'.
  split; [|split; [|split; [|split; [|split; [|split; [|split; [|split; [|split; [|split; [|split; [|split; [|split]]]]]]]]]]]]; try assumption.
  - now apply visible_input.
  - now rewrite <- !app_assoc.
  - repeat constructor.
  - rewrite E. constructor; [split; discriminate|]. eapply Forall_impl; [|exact Cp]. intros c ((_ & N) & _). unfold one_of in N. split; intros ->; apply N; cbn; tauto.
  - right. exists "/"%char, p'. split; [exact E|]. split; [now left|exact Pp].
  - apply T3; [discriminate|]. cbn. tauto.
Qed.
Lemma reparse (hp : host_parser) (s t : str) (u : url) : host_laws hp -> special_url hp s u -> url_text u t -> special_url hp t u.
Proof. intros K S T. now apply (reparse_visible hp s t u K S T). Qed.
Lemma special_line (hp : host_parser) (s m : str) (u : url) : host_laws hp -> special_url hp s u -> no_lf m -> line_request m u.
Proof.
  intros K S M. destruct (url_text_exists u) as (t & T & _). destruct (reparse_visible hp s t u K S T) as (_ & V).
  assert (Ha : u_has_authority u = true) by (destruct S as (? & ? & ? & ? & ? & ? & ? & _ & _ & _ & _ & _ & _ & _ & _ & H & _); exact H).
  destruct T as (a & q & f & Ta & Pq & Pf & ->). unfold authority_text in Ta. rewrite Ha in Ta. destruct Ta as (ui & h & p & U & H & P & ->).
  assert (L : forall x, Forall (fun c => (33 <= N_of_ascii c <= 126)%N) x -> no_lf x).
  { intros x F I. rewrite Forall_forall in F. apply F in I. cbn in I. lia. }
  rewrite !Forall_app in V. destruct V as (V1 & _ & (_ & V2 & V3 & _) & V4 & V5 & V6).
  split; [exact M|]. split; [now apply L|].
  assert (X : no_lf (u_username u) /\ no_lf_opt (u_password u)).
  { destruct U as [|n N|n pw]; cbn [no_lf_opt]; [split; [easy|exact I]| |]; rewrite !Forall_app in V2; split; try exact I; apply L; tauto. }
  destruct X as (X1 & X2). split; [exact X1|]. split; [exact X2|]. split; [|split; [now apply L|split]].
  - destruct (u_host u); cbn [no_lf_opt]; [|exact I]. subst h. now apply L.
  - destruct (u_query u); cbn [no_lf_opt prefixed] in *; [|exact I]. subst q. apply L. now inversion V5.
  - destruct (u_fragment u); cbn [no_lf_opt prefixed] in *; [|exact I]. subst f. apply L. now inversion V6.
Qed.
Lemma special_url_fun (hp : host_parser) (s : str) (u v : url) : special_url hp s u -> special_url hp s v -> u = v.
Proof.
  intros U V. assert (K : forall sch rest w, ~ special sch -> (fun _ _ : str => @Err url url_error UrlOther) sch rest = Ok w -> ~ special (u_scheme w)) by discriminate.
  apply (url_parse_special hp _ s u K) in U. apply (url_parse_special hp _ s v K) in V. destruct U as [U _], V as [V _]. rewrite U in V. now injection V.
Qed.

(** ** Targets as written *)
Lemma as_written_iff (p : str) : path_of p ("/"%char :: p) <-> normal_target p.
Proof.
  split.
  - intro P. apply path_normal in P. destruct P as (t' & E & _ & N). injection E as <-. exact N.
  - intros (C & D). destruct (split_slash_snoc p) as (l & x & E). assert (S : segments p (l ++ [x])) by (apply segments_iff; now symmetry).
    specialize (D _ S). pose proof (segments_parts _ _ S) as F.
    assert (Ep : p = List.concat (map (fun s => s ++ $"/") l) ++ x).
    { assert (Cn : Forall (fun c => c <> "\"%char) p) by (eapply Forall_impl; [|exact C]; now intros c []).
      clear - S Cn. remember (l ++ [x]) as m. revert l x Heqm. induction S as [s A|a c s m A Sc S IH]; intros l x E.
      - destruct l as [|y l]; [injection E as ->; reflexivity|]. destruct l; discriminate.
      - destruct l as [|y l]; [injection E as _ E; subst m; inversion S|]. injection E as -> E. apply Forall_app in Cn. destruct Cn as [_ Cn].
        inversion Cn as [|? ? Nc Cn']; subst. destruct Sc as [-> | ->]; [|contradiction]. cbn [map List.concat].
        rewrite <- !app_assoc. cbn [s2b list_ascii_of_string app]. f_equal. f_equal. now apply IH. }
    assert (G : Forall (fun y => Forall path_char y /\ Forall (fun c => ~ slash c) y /\ ~ dot y /\ ~ dots y) (l ++ [x])).
    { assert (Cs : forall y, In y (l ++ [x]) -> Forall path_char y).
      { intros y I. rewrite Ep in C. apply Forall_app in C. destruct C as [C1 C2]. apply in_app_or in I. destruct I as [I|[<-|[]]]; [|exact C2].
        clear - I C1. induction l as [|z l IH]; [easy|]. cbn [map List.concat] in C1. apply Forall_app in C1. destruct C1 as [C1 C2].
        destruct I as [->|I]; [now apply Forall_app in C1|auto]. }
      rewrite Forall_forall in *. intros y I. destruct (D y I). auto. }
    pose proof (normal_path l x G) as N. rewrite <- Ep in N. replace ("/"%char :: p) with (directory_text l ++ x); [exact N|]. rewrite Ep. reflexivity.
Qed.
Lemma path_of_fun (p a b : str) : path_of p a -> path_of p b -> a = b.
Proof. intros A B. apply path_of_iff in A, B. congruence. Qed.
Lemma slash_relative (hp : host_parser) (sp : scheme_parser) (p : str) : url_parse hp sp ("/"%char :: p) = Err RelativeUrlWithoutBase.
Proof.
  unfold url_parse. assert (X : exists t, clean_input ("/"%char :: p) = "/"%char :: t).
  { unfold clean_input. cbn [drop_while]. change (c0_or_space "/") with false. cbv iota. cbn [rev].
    assert (Y : forall l, exists m, drop_while c0_or_space (l ++ ["/"%char]) = m ++ ["/"%char]).
    { induction l as [|c l [m IH]]; [now exists []|]. cbn [app drop_while]. destruct (c0_or_space c); [eauto|]. exists (c :: l). reflexivity. }
    destruct (Y (rev p)) as [m E]. rewrite E, rev_app_distr. cbn [rev app filter]. change (negb (tab_or_newline "/")) with true. cbv iota. eauto. }
  destruct X as [t ->]. reflexivity.
Qed.
Lemma http_clean (w : str) : exists t, clean_input ($"http:" ++ w) = $"http:" ++ t.
Proof.
  unfold clean_input. change (drop_while c0_or_space ($"http:" ++ w)) with ($"http:" ++ w). rewrite rev_app_distr.
  assert (Y : forall l, exists m, drop_while c0_or_space (l ++ rev $"http:") = m ++ rev $"http:").
  { induction l as [|c l [m IH]]; [now exists []|]. cbn [app drop_while]. destruct (c0_or_space c); [eauto|]. exists (c :: l). reflexivity. }
  destruct (Y (rev w)) as [m E]. rewrite E, rev_app_distr, rev_involutive. rewrite filter_app. eexists. reflexivity.
Qed.
Lemma http_text (hp : host_parser) (sp : scheme_parser) (w : str) (u : url) :
  url_parse hp sp ($"http:" ++ w) = Ok u <-> special_url hp ($"http:" ++ w) u.
Proof.
  assert (X : url_parse hp sp ($"http:" ++ w) = url_parse hp (fun _ _ => Err UrlOther) ($"http:" ++ w)).
  { unfold url_parse. destruct (http_clean w) as [t ->]. reflexivity. }
  rewrite X, (url_parse_special hp (fun _ _ => Err UrlOther)); [|discriminate].
  split; [|tauto]. intro H. split; [exact H|]. unfold url_parse in H. destruct (http_clean w) as [t E]. rewrite E in H.
  change (parse_scheme ($"http:" ++ t)) with (Some ($"http", t)) in H. cbv beta iota in H.
  change (default_port $"http") with (Some 80%N) in H. cbv beta iota in H. unfold parse_special in H.
  destruct (parse_userinfo _) as [[n pw] hps]. destruct (split_host false hps) as [h q]. destruct h; [discriminate|].
  destruct (hp _); [|discriminate]. destruct (parse_port _ _); [|discriminate]. destruct (parse_query _). injection H as <-.
  exists 80%N. cbn. auto.
Qed.
(** A text with a scheme, and the converse. *)
Lemma relative_iff (hp : host_parser) (sp : scheme_parser) (s : str) : scheme_laws sp ->
  (url_parse hp sp s = Err RelativeUrlWithoutBase <-> ~ has_scheme s).
Proof.
  intro K. unfold url_parse, has_scheme. destruct (parse_scheme (clean_input s)) as [[sch rest]|] eqn:P.
  - split.
    + intro H. exfalso. destruct (default_port sch) as [dp|] eqn:D.
      * unfold parse_special in H. destruct (parse_userinfo _) as [[n pw] hps]. destruct (split_host false hps) as [h q].
        destruct h; [discriminate|]. destruct (hp _); [|discriminate]. destruct (parse_port _ _); [|discriminate]. destruct (parse_query _). discriminate.
      * destruct (K sch rest) as [N _]; [rewrite special_iff; now rewrite D|]. contradiction.
    + intro H. exfalso. apply H. apply parse_scheme_iff in P. destruct P as (x & E & T & _). exists (clean_input s), x, rest.
      split; [now apply clean_iff|]. split; [exact E|exact T].
  - split; [|reflexivity]. intros _ (t & x & rest & I & -> & T). apply clean_iff in I.
    assert (Q : parse_scheme (clean_input s) = Some (map to_lower x, rest)); [|congruence]. rewrite <- I. apply parse_scheme_iff. exists x.
    split; [reflexivity|]. split; [exact T|now apply Forall2_lower].
Qed.
