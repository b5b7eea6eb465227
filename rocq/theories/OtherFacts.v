(** URLs whose scheme is not special: the parser yields exactly what SpecOther.v says. *)
From Verif Require Import SpecOther UrlFacts NameFacts HostTextFacts Ipv6Facts StrFacts.

Lemma other_query_ok : set_ok enc_other_query other_query_set. Proof. apply set_ok_sweep. vm_compute. reflexivity. Qed.
Lemma control_iff (c : ascii) : enc_control c = false <-> (32 <= N_of_ascii c <= 126)%N.
Proof. unfold enc_control, code. rewrite orb_false_iff, N.ltb_ge, N.leb_gt. lia. Qed.
Lemma controls_iff (s t : str) : controls_encoded s t <-> t = percent_encode enc_control s.
Proof.
  split.
  - induction 1 as [|c s t S _ IH|c s t S _ IH]; [reflexivity| |]; unfold percent_encode in *; cbn [map List.concat]; unfold encode_byte at 1.
    + apply control_iff in S. now rewrite S, <- IH.
    + rewrite <- control_iff in S. apply not_false_iff_true in S. rewrite S, <- IH. reflexivity.
  - intros ->. induction s as [|c s IH]; [constructor|]. unfold percent_encode. cbn [map List.concat]. unfold encode_byte at 1.
    destruct (enc_control c) eqn:E.
    + apply (ce_byte c s); [rewrite <- control_iff; congruence|exact IH].
    + apply ce_stay; [now apply control_iff|exact IH].
Qed.

(** ** Segments *)
Lemma fwd_none (s : str) : ~ In "/"%char s -> split_fwd s = [s].
Proof.
  induction s as [|c s IH]; [reflexivity|]. intro N. cbn [split_fwd]. destruct (Ascii.eqb_spec c "/") as [->|]; [destruct N; now left|].
  rewrite IH; [reflexivity|]. intro I. apply N. now right.
Qed.
Lemma fwd_app (a s : str) : ~ In "/"%char a -> split_fwd (a ++ "/"%char :: s) = a :: split_fwd s.
Proof.
  induction a as [|c a IH]; [reflexivity|]. intro N. cbn [app split_fwd]. destruct (Ascii.eqb_spec c "/") as [->|]; [destruct N; now left|].
  rewrite IH; [reflexivity|]. intro I. apply N. now right.
Qed.
Lemma fwd_iff (s : str) (l : list str) : fwd_segments s l <-> l = split_fwd s.
Proof.
  split.
  - induction 1 as [s H|a s l A _ IH]; [now rewrite fwd_none|]. now rewrite fwd_app, IH.
  - intros ->. induction s as [|c s IH]; [apply fwd_last; easy|]. cbn [split_fwd]. destruct (Ascii.eqb_spec c "/") as [->|E].
    + apply (fwd_more []); [easy|exact IH].
    + inversion IH as [s' H Es El|a s' l A S Es El].
      * apply fwd_last. intros [X|X]; [congruence|contradiction].
      * apply (fwd_more (c :: a)); [intros [X|X]; [congruence|contradiction]|]. exact S.
Qed.
Lemma split_fwd_snoc (s : str) : exists l x, split_fwd s = l ++ [x].
Proof.
  destruct (split_fwd s) as [|y l] eqn:E.
  - exfalso. assert (S : fwd_segments s []) by (apply fwd_iff; congruence). inversion S.
  - destruct (@exists_last _ (y :: l)) as (l' & x & F); [discriminate|]. rewrite F. eauto.
Qed.
Lemma fwd_path_iff (s t : str) : fwd_path_of s t <-> t = path_loop [] (split_fwd s).
Proof.
  unfold fwd_path_of. split.
  - intros (segs & l & d & S & F & H). apply fwd_iff in S. subst segs. apply Forall2_encoded in F.
    destruct (split_fwd_snoc s) as (l0 & x0 & E). rewrite E in *. rewrite map_app in F. cbn [map] in F. rewrite path_loop_snoc. cbv zeta.
    destruct H as [(R & (l' & x & L & D) & ->)|(l' & x & L & R & N1 & N2 & ->)].
    + rewrite L in F. apply app_inj_tail in F. destruct F as (-> & ->).
      assert (B : double_dot (percent_encode enc_path x0) || single_dot (percent_encode enc_path x0) = true).
      { apply orb_true_iff. rewrite dots_iff, dot_iff. tauto. }
      rewrite B. apply reached_iff in R. rewrite L, fold_left_app in R. cbn [fold_left] in R. subst d. now rewrite path_join_dir, app_nil_r.
    + rewrite L in F. apply app_inj_tail in F. destruct F as (-> & ->). rewrite <- dot_iff in N1. rewrite <- dots_iff in N2.
      apply not_true_iff_false in N1, N2. rewrite N1, N2. cbn [orb]. apply reached_iff in R. subst d. now rewrite path_join_dir.
  - intros ->. destruct (split_fwd_snoc s) as (l0 & x0 & E). rewrite E, path_loop_snoc. cbv zeta.
    set (e := percent_encode enc_path x0). set (l := map (percent_encode enc_path) l0).
    destruct (double_dot e || single_dot e) eqn:B.
    + exists (l0 ++ [x0]), (l ++ [e]), (rev (step (fold_left step l []) e)). split; [now apply fwd_iff|].
      split; [apply Forall2_encoded; now rewrite map_app|]. left. split; [apply reached_iff; now rewrite fold_left_app|].
      split; [|now rewrite path_join_dir, app_nil_r]. exists l, e. split; [reflexivity|].
      apply orb_true_iff in B. rewrite dots_iff, dot_iff in B. tauto.
    + exists (l0 ++ [x0]), (l ++ [e]), (rev (fold_left step l [])). split; [now apply fwd_iff|].
      split; [apply Forall2_encoded; now rewrite map_app|]. right. exists l, e. split; [reflexivity|].
      split; [now apply reached_iff|]. apply orb_false_iff in B. destruct B as (B1 & B2).
      split; [rewrite <- dot_iff; congruence|]. split; [rewrite <- dots_iff; congruence|]. now rewrite path_join_dir.
Qed.

(** ** Hosts *)
Lemma opaque_chars (s : str) : existsb invalid_opaque_char s = false <->
  Forall (fun c => ~ In (N_of_ascii c) [0; 9; 10; 13]%N /\ ~ one_of " #/:<>?@[\]^|" c) s.
Proof.
  assert (K : forall c, invalid_opaque_char c = false <-> ~ In (N_of_ascii c) [0; 9; 10; 13]%N /\ ~ one_of " #/:<>?@[\]^|" c).
  { intro c. unfold invalid_opaque_char, one_of, code. rewrite orb_false_iff.
    assert (X : forall {A} (f : A -> A -> bool) (sp : forall x y, f x y = true <-> x = y) x l, existsb (f x) l = false <-> ~ In x l).
    { intros A f sp x l. rewrite <- not_true_iff_false, existsb_exists. split; intros H I; apply H.
      - exists x. split; [exact I|now apply sp].
      - destruct I as (y & I & E). apply sp in E. now subst. }
    rewrite (X _ N.eqb N.eqb_eq). rewrite (X _ Ascii.eqb Ascii.eqb_eq). reflexivity. }
  split.
  - intro H. apply Forall_forall. intros c I. apply K. destruct (invalid_opaque_char c) eqn:E; [|reflexivity].
    assert (Y : existsb invalid_opaque_char s = true) by (apply existsb_exists; eauto). congruence.
  - intro F. destruct (existsb invalid_opaque_char s) eqn:E; [|reflexivity]. apply existsb_exists in E. destruct E as (c & I & E).
    rewrite Forall_forall in F. apply F, K in I. congruence.
Qed.
Lemma opaque_bracket (s h : str) : starts_with $"[" s = true ->
  (opaque_host s = Some h <-> exists p, host_parse (fun _ => None) s = Some (HIpv6 p) /\ h = $"[" ++ ipv6_text p ++ $"]").
Proof.
  intro B. unfold opaque_host, host_parse. rewrite B.
  destruct (rev s) as [|c [|d t]]; try (split; [discriminate|intros (p & X & _); discriminate X]).
  - destruct c as [[] [] [] [] [] [] [] []]; split; try discriminate; intros (p & X & _); discriminate X.
  - destruct c as [[] [] [] [] [] [] [] []]; try (split; [discriminate|intros (p & X & _); discriminate X]).
    destruct (parse_ipv6addr _) as [p|]; cbn [option_map]; split.
    + intro H. injection H as <-. eauto.
    + intros (p' & X & ->). now injection X as <-.
    + discriminate.
    + intros (p' & X & _). discriminate X.
Qed.
Lemma opaque_iff (s h : str) : opaque_host s = Some h <-> opaque_host_of s h.
Proof.
  destruct (starts_with $"[" s) eqn:B.
  - rewrite (opaque_bracket s h B). split.
    + intros (p & H & ->). apply host_iff in H. inversion H as [x p' R E1 E2| |]; subst. apply (opaque_ipv6 x p); [exact R|].
      apply ipv6_text_written. now apply ipv6_reads_ok with (s := x).
    + intro H. inversion H as [x p w R W E1 E2|x t F C E1 E2]; subst.
      * exists p. split; [apply host_iff; now constructor|]. f_equal. f_equal. apply (ipv6_written_unique p); [exact W|].
        apply ipv6_text_written. now apply ipv6_reads_ok with (s := x).
      * exfalso. apply starts_with_spec in B. destruct B as [y ->]. inversion F as [|z w [_ Z] _]. apply Z. cbn. tauto.
  - unfold opaque_host. rewrite B. split.
    + destruct (existsb invalid_opaque_char s) eqn:E; [discriminate|]. intro H. injection H as <-. apply opaque_text; [now apply opaque_chars|now apply controls_iff].
    + intro H. inversion H as [x p w R W E1 E2|x t F C E1 E2]; subst; [discriminate B|]. apply opaque_chars in F. rewrite F. f_equal. symmetry. now apply controls_iff.
Qed.

(** ** Queries *)
Lemma other_query_iff (s : str) (oq of : option str) : stops (fun c => negb (ends_path c)) s ->
  (parse_other_query s = (oq, of) <-> exists q f, s = q ++ f /\ tail_of "?" other_query_set oq q /\ ~ In "#"%char q /\ tail_of "#" fragment_set of f).
Proof.
  pose proof (encoded_iff _ _ other_query_ok) as KQ. pose proof (encoded_iff _ _ fragment_ok) as KF. intro S. split.
  - destruct s as [|c s]; cbn [parse_other_query].
    + intro H. injection H as <- <-. exists [], []. cbn [tail_of]. auto.
    + cbn [stops] in S. fold not_hash. destruct (Ascii.eqb_spec c "?") as [->|N].
      * pose proof (take_drop not_hash s) as T. pose proof (drop_while_stops not_hash s) as St. pose proof (take_while_all not_hash s) as A.
        destruct (drop_while not_hash s) as [|d r] eqn:D.
        -- intro H. injection H as <- <-. exists ("?"%char :: take_while not_hash s), []. cbn [tail_of]. split; [|split; [|split]].
           ++ cbn [app]. now rewrite <- T at 1.
           ++ exists (take_while not_hash s). split; [reflexivity|now apply KQ].
           ++ intros [E|I]; [discriminate|]. apply not_hash_iff in A. contradiction.
           ++ reflexivity.
        -- intro H. injection H as <- <-. exists ("?"%char :: take_while not_hash s), (d :: r). split; [|split; [|split]].
           ++ cbn [app]. now rewrite <- T at 1.
           ++ exists (take_while not_hash s). split; [reflexivity|now apply KQ].
           ++ intros [E|I]; [discriminate|]. apply not_hash_iff in A. contradiction.
           ++ cbn [stops] in St. unfold not_hash in St. apply negb_false_iff, Ascii.eqb_eq in St. subst d. exists r. split; [reflexivity|now apply KF].
      * intro H. injection H as <- <-. unfold ends_path in S. apply negb_false_iff, orb_true_iff in S. rewrite !Ascii.eqb_eq in S.
        destruct S as [-> | ->]; [contradiction|]. exists [], ("#"%char :: s). cbn [tail_of app]. split; [reflexivity|]. split; [reflexivity|]. split; [easy|].
        exists s. split; [reflexivity|now apply KF].
  - intros (q & f & -> & Q & N & F).
    assert (Ff : of = match f with [] => None | _ :: t' => Some (percent_encode enc_fragment t') end /\ stops not_hash f).
    { destruct of as [e|]; cbn [tail_of] in F; [destruct F as (t & -> & F); apply KF in F; now rewrite F|now subst f]. }
    destruct Ff as (-> & St). destruct oq as [e|]; cbn [tail_of] in Q.
    + destruct Q as (t & -> & E). apply KQ in E. subst e. cbn [app parse_other_query]. change (Ascii.eqb "?" "?") with true. cbv iota. fold not_hash.
      assert (Nt : forallb not_hash t = true) by (apply not_hash_iff; intro I; apply N; now right).
      rewrite take_while_app, drop_while_app by assumption. reflexivity.
    + subst q. cbn [app]. destruct f as [|c f]; [reflexivity|]. cbn [parse_other_query]. cbn [stops] in St. unfold not_hash in St.
      apply negb_false_iff, Ascii.eqb_eq in St. subst c. reflexivity.
Qed.

(** ** Authorities *)
Lemma userinfo_iff (a n hps : str) (pw : option str) : parse_userinfo a = (n, pw, hps) <->
  ~ In "@"%char a /\ n = [] /\ pw = None /\ hps = a \/ exists c, a = c ++ "@"%char :: hps /\ ~ In "@"%char hps /\ credentials c n pw.
Proof.
  unfold parse_userinfo. split.
  - destruct (split_last "@" a) as [[c r]|] eqn:L.
    + apply split_last_iff in L. destruct L as (-> & N). intro H. right. exists c.
      assert (E : r = hps) by (destruct (split_once ":" c) as [[x [|d y]]|]; injection H as _ _ H; exact H). subst r.
      split; [reflexivity|]. split; [exact N|]. apply credentials_iff. destruct (split_once ":" c) as [[x [|d y]]|]; injection H as <- <-; auto.
    + apply split_last_none in L. intro H. injection H as <- <- <-. now left.
  - intros [(N & -> & -> & ->)|(c & -> & N & C)].
    + apply split_last_none in N. now rewrite N.
    + assert (L : split_last "@" (c ++ "@"%char :: hps) = Some (c, hps)) by (apply split_last_iff; auto). rewrite L.
      apply credentials_iff in C. destruct (split_once ":" c) as [[x [|d y]]|]; destruct C as (-> & ->); reflexivity.
Qed.
Lemma encoded_empty (set : string) (s : str) : encoded set s [] -> s = [].
Proof. now inversion 1. Qed.
Lemma no_credentials (c : str) : credentials c [] None <-> c = [] \/ c = $":".
Proof.
  split.
  - intro C. inversion C as [n n' N E|n n' N E|]; subst; apply encoded_empty in E; subst; auto.
  - intros [-> | ->]; [apply cred_name|apply (cred_empty [])]; (easy || constructor).
Qed.
Lemma no_userinfo (a : str) : parse_userinfo a = ([], None, []) <-> In a [[]; $"@"; $":@"].
Proof.
  rewrite userinfo_iff. cbn [In]. split.
  - intros [(_ & _ & _ & <-)|(c & -> & _ & C)]; [now left|]. apply no_credentials in C. destruct C as [-> | ->]; auto.
  - intros [<-|[<-|[<-|[]]]]; [left; auto|right; exists []|right; exists $":"]; (split; [reflexivity|]; split; [easy|]; apply no_credentials; auto).
Qed.
Lemma value_digits (s : str) (acc p : N) : numeral_value acc s = Some p -> forallb is_digit s = true.
Proof.
  rewrite <- digits_value_eq. revert acc. induction s as [|c s IH]; intro acc; [reflexivity|]. cbn [digits_value forallb].
  destruct (is_digit c); [apply IH|discriminate].
Qed.
Lemma port_digits (sch ds : str) (o : option N) : port_of sch (":"%char :: ds) o -> forallb is_digit ds = true.
Proof. intro P. inversion P; subst; [reflexivity| |]; eapply value_digits; eassumption. Qed.
Lemma other_port_iff (sch p b : str) (o : option N) : (p = [] \/ exists p', p = ":"%char :: p') ->
  (parse_other_port sch p = Some (o, b) <->
   exists pt, p = pt ++ b /\ port_of sch pt o /\ (b = [] \/ pt <> [] /\ exists b', b = "\"%char :: b')).
Proof.
  intros [-> | (p' & ->)].
  - cbn [parse_other_port]. split.
    + intro H. injection H as <- <-. exists []. split; [reflexivity|]. split; [constructor|now left].
    + intros (pt & E & P & _). destruct pt; [|discriminate]. destruct b; [|discriminate]. inversion P. reflexivity.
  - cbn [parse_other_port]. split.
    + intro H. pose proof (take_drop is_digit p') as T. set (ds := take_while is_digit p') in *. set (after := drop_while is_digit p') in *.
      exists (":"%char :: ds).
      assert (M : after = [] \/ exists b', after = "\"%char :: b').
      { destruct after as [|d r]; [now left|]. destruct (Ascii.eqb_spec d "\") as [->|]; [eauto|discriminate H]. }
      assert (X : parse_port sch (":"%char :: ds) = Some o /\ b = after).
      { destruct M as [M|[b' M]]; rewrite M in H; cbn [Ascii.eqb Bool.eqb] in H; cbv iota in H; destruct (parse_port sch (":"%char :: ds)); try discriminate H; injection H as <- <-; now rewrite M. }
      destruct X as (X & ->). split; [cbn [app]; now rewrite T|]. split; [apply parse_port_iff; eauto|]. destruct M as [M|M]; [now left|right; split; [discriminate|exact M]].
    + intros (pt & E & P & B). destruct pt as [|c ds].
      { destruct B as [-> |(N & _)]; [discriminate E|now destruct N]. }
      injection E as <- ->. pose proof (port_digits _ _ _ P) as D.
      assert (S : stops is_digit b). { destruct B as [-> |(_ & b' & ->)]; [exact I|reflexivity]. }
      rewrite take_while_app, drop_while_app by assumption. apply parse_port_iff in P; [|eauto]. rewrite P.
      destruct B as [-> |(_ & b' & ->)]; reflexivity.
Qed.
Definition tail_ok (pt b : str) : Prop := b = [] \/ pt <> [] /\ ~ In "@"%char b /\ exists b', b = "\"%char :: b'.
Lemma other_authority_iff (sch A b : str) (u : url) :
  (exists a pt, A = a ++ b /\ other_authority sch a pt u /\ tail_ok pt b) <->
  exists n pw hps h p, parse_userinfo A = (n, pw, hps) /\ split_host false hps = (h, p) /\ u_username u = n /\ u_password u = pw
    /\ (h = [] /\ p = [] /\ n = [] /\ pw = None /\ u_host u = None /\ u_port u = None /\ b = []
        \/ h <> [] /\ exists host, opaque_host h = Some host /\ u_host u = Some host /\ parse_other_port sch p = Some (u_port u, b)).
Proof.
  split.
  - intros (a & pt & -> & O & T).
    assert (G : forall c, u_host u <> None -> forall h host, (c = [] /\ u_username u = [] /\ u_password u = None \/ exists c0, c = c0 ++ $"@" /\ credentials c0 (u_username u) (u_password u)) ->
       ~ In "@"%char (h ++ pt) -> host_text h pt -> opaque_host_of h host -> u_host u = Some host -> port_of sch pt (u_port u) ->
       exists n pw hps x p, parse_userinfo (c ++ (h ++ pt) ++ b) = (n, pw, hps) /\ split_host false hps = (x, p) /\ u_username u = n /\ u_password u = pw
    /\ (x = [] /\ p = [] /\ n = [] /\ pw = None /\ u_host u = None /\ u_port u = None /\ b = []
        \/ x <> [] /\ exists host, opaque_host x = Some host /\ u_host u = Some host /\ parse_other_port sch p = Some (u_port u, b))).
    { intros c _ h host C N (Nh & e & B & E) H Hh P. exists (u_username u), (u_password u), ((h ++ pt) ++ b), h, (pt ++ b).
      assert (Nb : ~ In "@"%char ((h ++ pt) ++ b)). { rewrite in_app_iff. intros [I|I]; [contradiction|]. destruct T as [-> |(_ & X & _)]; contradiction. }
      pose proof (port_of_shape _ _ _ P) as Sh.
      assert (Sp : pt ++ b = [] \/ exists p', pt ++ b = ":"%char :: p').
      { destruct T as [-> |(X & _)]; [rewrite app_nil_r; exact Sh|]. destruct Sh as [-> |(p' & ->)]; [now destruct X|right; cbn [app]; eauto]. }
      split.
      { apply userinfo_iff. destruct C as [(-> & C1 & C2)|(c0 & -> & C)]; [left; auto|]. right. exists c0. split; [rewrite <- !app_assoc; reflexivity|]. now split. }
      split.
      { apply split_host_iff. split; [now rewrite app_assoc|]. split; [exact Sp|]. exists e. split; [exact B|]. destruct E as [-> | ->]; [|now right]. left. destruct T as [-> |(X & _)]; [reflexivity|now destruct X]. }
      split; [reflexivity|]. split; [reflexivity|]. right. split; [exact Nh|]. exists host. split; [now apply opaque_iff|]. split; [exact Hh|].
      apply other_port_iff; [exact Sp|]. exists pt. split; [reflexivity|]. split; [exact P|]. destruct T as [-> |(X & _ & Y)]; [now left|right; now split]. }
    destruct O as [a u I U P H Po|h pt host u N U P T' H Hh Po|c h pt host u C N T' H Hh Po].
    + destruct T as [-> |(X & _)]; [|now destruct X]. rewrite app_nil_r. exists [], None, [], [], []. split; [now apply no_userinfo|]. split; [reflexivity|]. split; [exact U|]. split; [exact P|]. left. repeat split; assumption.
    + apply (G []) with (host := host); auto. congruence.
    + replace ((c ++ "@"%char :: h ++ pt) ++ b) with ((c ++ $"@") ++ (h ++ pt) ++ b) by (cbn [s2b list_ascii_of_string]; rewrite <- !app_assoc; cbn [app]; rewrite <- ?app_assoc; reflexivity).
      apply G with (host := host); auto; [congruence|]. right. exists c. auto.
  - intros (n & pw & hps & h & p & U & S & Un & Up & [(-> & -> & -> & -> & Hh & Po & ->)|(Nh & host & H & Hh & P)]).
    + apply split_host_iff in S. destruct S as (-> & _). exists A, []. split; [now rewrite app_nil_r|]. split; [|now left]. apply oa_no_host; auto. now apply no_userinfo.
    + apply split_host_iff in S. destruct S as (-> & Sh & e & B & E). apply (other_port_iff _ _ _ _ Sh) in P. destruct P as (pt & -> & P & Bb).
      assert (T : host_text h pt). { split; [exact Nh|]. exists e. split; [exact B|]. destruct E as [E|E]; [|now right]. left. now apply app_eq_nil in E. }
      assert (K : ~ In "@"%char (h ++ pt ++ b) -> ~ In "@"%char (h ++ pt) /\ tail_ok pt b).
      { intro X. rewrite !in_app_iff in X. rewrite in_app_iff. split; [tauto|]. destruct Bb as [-> |(Y & Z)]; [now left|right]. split; [exact Y|]. split; [tauto|exact Z]. }
      apply opaque_iff in H. apply userinfo_iff in U. destruct U as [(N & -> & -> & <-)|(c & -> & N & C)]; apply K in N; destruct N as (N & Tl).
      * exists (h ++ pt), pt. split; [now rewrite app_assoc|]. split; [|exact Tl]. now apply oa_plain with (host := host).
      * exists (c ++ "@"%char :: h ++ pt), pt. split; [rewrite <- app_assoc; cbn [app]; now rewrite <- app_assoc|]. split; [|exact Tl]. apply oa_user with (host := host); auto. now rewrite Un, Up.
Qed.
(** ** URLs with an authority *)
Lemma at_no_port (sch pt : str) (u : url) : other_authority sch $"@" pt u -> pt = [].
Proof.
  intro O. inversion O as [a u0 I U P H Po E1 E2|h pt0 host u0 N U P T H Hh Po E1 E2|c h pt0 host u0 C N T H Hh Po E1 E2]; subst; [reflexivity| |].
  - exfalso. rewrite E1 in N. apply N. now left.
  - destruct c as [|c0 c].
    + injection E1 as E1. now apply app_eq_nil in E1.
    + injection E1 as _ E1. destruct c; discriminate E1.
Qed.
Lemma ends_other_iff (c : ascii) : negb (ends_other_authority c) = true <-> c <> "/"%char /\ c <> "?"%char /\ c <> "#"%char.
Proof. unfold ends_other_authority. rewrite negb_orb, andb_true_iff, ends_path_iff, negb_true_iff, Ascii.eqb_neq. reflexivity. Qed.
Lemma other_path_iff (b path t : str) : (b = [] \/ exists b', b = "\"%char :: b') -> (path = [] \/ exists p, path = "/"%char :: p) ->
  (parse_other_path (b ++ path) = t <->
   b ++ path = [] /\ t = [] \/ (exists p, b ++ path = "/"%char :: p /\ fwd_path_of p t) \/ b <> [] /\ fwd_path_of (b ++ path) t).
Proof.
  intros [-> |(b' & ->)] P; cbn [app].
  - destruct P as [-> |(p & ->)]; cbn [parse_other_path].
    + split; [intros <-; left; auto|]. intros [(_ & ->)|[(p & E & _)|(N & _)]]; [reflexivity|discriminate|now destruct N].
    + change (Ascii.eqb "/" "/") with true. cbv iota. split.
      * intros <-. right. left. exists p. split; [reflexivity|now apply fwd_path_iff].
      * intros [(E & _)|[(p' & E & F)|(N & _)]]; [discriminate| |now destruct N]. injection E as <-. symmetry. now apply fwd_path_iff.
  - unfold parse_other_path. change (Ascii.eqb "\" "/") with false. cbv iota. split.
    + intros <-. right. right. split; [discriminate|now apply fwd_path_iff].
    + intros [(E & _)|[(p' & E & F)|(N & F)]]; [discriminate|discriminate|]. symmetry. now apply fwd_path_iff.
Qed.
Lemma parse_authority_iff (sch s : str) (ends : bool) (oq of : option str) (u : url) : Forall (fun c => c <> "?"%char /\ c <> "#"%char) s ->
  (parse_other_authority sch s ends oq of = Ok u <->
   u_scheme u = sch /\ u_has_authority u = true /\ u_query u = oq /\ u_fragment u = of
   /\ exists a pt b path, s = a ++ b ++ path /\ ~ In "/"%char (a ++ b) /\ other_authority sch a pt u /\ tail_ok pt b
        /\ (a = $"@" -> path = [] /\ ends = true)
        /\ (path = [] \/ exists p, path = "/"%char :: p)
        /\ (b ++ path = [] /\ u_path u = [] \/ (exists p, b ++ path = "/"%char :: p /\ fwd_path_of p (u_path u))
            \/ b <> [] /\ fwd_path_of (b ++ path) (u_path u))).
Proof.
  intro Fs. set (g := fun c => negb (ends_other_authority c)).
  assert (Sl : forall x, Forall (fun c => c <> "?"%char /\ c <> "#"%char) x -> (forallb g x = true <-> ~ In "/"%char x)).
  { intros x F. rewrite forallb_forall. split.
    - intros H I. apply H in I. discriminate I.
    - intros N c I. unfold g. apply ends_other_iff. rewrite Forall_forall in F. split; [intros ->; contradiction|now apply F]. }
  assert (St : forall x, Forall (fun c => c <> "?"%char /\ c <> "#"%char) x -> (stops g x <-> x = [] \/ exists p, x = "/"%char :: p)).
  { intros x F. destruct x as [|c x]; cbn [stops]; [split; auto|]. inversion F as [|y z (N1 & N2) _]; subst.
    unfold g, ends_other_authority, ends_path. rewrite negb_false_iff, !orb_true_iff, !Ascii.eqb_eq. split.
    - intros [->|[|]]; [eauto|contradiction|contradiction].
    - intros [E|(p & E)]; [discriminate|]. injection E as -> _. now left. }
  split.
  - unfold parse_other_authority. fold g. pose proof (take_drop g s) as T. pose proof (take_while_all g s) as Ta. pose proof (drop_while_stops g s) as Tr.
    set (A := take_while g s) in *. set (rest := drop_while g s) in *.
    assert (FF : Forall (fun c => c <> "?"%char /\ c <> "#"%char) A /\ Forall (fun c => c <> "?"%char /\ c <> "#"%char) rest) by (rewrite <- T in Fs; now apply Forall_app in Fs).
    destruct FF as (FA & FR). apply (Sl A FA) in Ta. apply (St rest FR) in Tr.
    destruct (parse_userinfo A) as [[n pw] hps] eqn:U.
    destruct (str_eqb A $"@" && negb (match rest with [] => ends | _ => false end)) eqn:K; [discriminate|].
    assert (K' : A = $"@" -> rest = [] /\ ends = true).
    { intros E. rewrite E in K. cbn [str_eqb] in K. change (str_eqb $"@" $"@") with true in K. cbn [andb] in K. destruct rest; [|discriminate K]. split; [reflexivity|]. now apply negb_false_iff in K. }
    destruct (split_host false hps) as [h p] eqn:H.
    assert (G : forall v b, parse_other_path (b ++ rest) = u_path v ->
       (exists n pw hps h p, parse_userinfo A = (n, pw, hps) /\ split_host false hps = (h, p) /\ u_username v = n /\ u_password v = pw
          /\ (h = [] /\ p = [] /\ n = [] /\ pw = None /\ u_host v = None /\ u_port v = None /\ b = []
              \/ h <> [] /\ exists host, opaque_host h = Some host /\ u_host v = Some host /\ parse_other_port sch p = Some (u_port v, b))) ->
       exists a pt b path, s = a ++ b ++ path /\ ~ In "/"%char (a ++ b) /\ other_authority sch a pt v /\ tail_ok pt b
        /\ (a = $"@" -> path = [] /\ ends = true)
        /\ (path = [] \/ exists p, path = "/"%char :: p)
        /\ (b ++ path = [] /\ u_path v = [] \/ (exists p, b ++ path = "/"%char :: p /\ fwd_path_of p (u_path v))
            \/ b <> [] /\ fwd_path_of (b ++ path) (u_path v))).
    { intros v b Pp X. apply other_authority_iff in X. destruct X as (a & pt & EA & O & Tl). exists a, pt, b, rest.
      split; [rewrite <- T, EA; now rewrite <- app_assoc|]. split; [now rewrite <- EA|]. split; [exact O|]. split; [exact Tl|].
      split.
      { intros ->. apply K'. destruct Tl as [-> |(Np & _)]; [now rewrite EA|]. now rewrite (at_no_port _ _ _ O) in Np. }
      split; [exact Tr|]. apply other_path_iff; [|exact Tr|exact Pp]. destruct Tl as [-> |(_ & _ & b' & ->)]; eauto. }
    destruct h as [|c h].
    + destruct p; [|discriminate]. destruct n; [|discriminate]. destruct pw; [discriminate|]. intro E. injection E as <-. repeat (split; [reflexivity|]).
      apply (G _ []); [reflexivity|]. exists [], None, hps, [], []. repeat (split; [reflexivity || assumption|]). left. repeat split; reflexivity.
    + destruct (opaque_host (c :: h)) as [host|] eqn:Eh; [|discriminate]. destruct (parse_other_port sch p) as [[port more]|] eqn:Ep; [|discriminate].
      intro E. injection E as <-. repeat (split; [reflexivity|]). apply (G _ more); [reflexivity|]. exists n, pw, hps, (c :: h), p.
      repeat (split; [reflexivity || assumption|]). right. split; [discriminate|]. exists host. repeat (split; [reflexivity || assumption|]). exact Ep.
  - intros (Es & Ea & Eq & Ef & a & pt & b & path & -> & N & O & Tl & K & Hp & Pp).
    assert (FF : Forall (fun c => c <> "?"%char /\ c <> "#"%char) (a ++ b) /\ Forall (fun c => c <> "?"%char /\ c <> "#"%char) path) by (rewrite app_assoc in Fs; now apply Forall_app in Fs).
    destruct FF as (FA & FR). pose proof (proj2 (Sl _ FA) N) as Ga. pose proof (proj2 (St _ FR) Hp) as Gr.
    apply other_path_iff in Pp; [|destruct Tl as [-> |(_ & _ & b' & ->)]; eauto|exact Hp].
    unfold parse_other_authority. fold g. rewrite app_assoc, take_while_app, drop_while_app by assumption.
    assert (X : str_eqb (a ++ b) $"@" && negb (match path with [] => ends | _ => false end) = false).
    { destruct (str_eqb (a ++ b) $"@") eqn:E; [|reflexivity]. apply str_eqb_eq in E. assert (Ea' : a = $"@").
      { destruct Tl as [-> |(_ & Nb & b' & ->)]; [now rewrite app_nil_r in E|]. exfalso. destruct a as [|x a]; [discriminate E|]. injection E as _ E. now destruct a. }
      destruct (K Ea') as (-> & ->). reflexivity. }
    rewrite X. assert (Y : exists a0 pt0, a ++ b = a0 ++ b /\ other_authority sch a0 pt0 u /\ tail_ok pt0 b) by eauto.
    apply other_authority_iff in Y. destruct Y as (n & pw & hps & h & p & -> & -> & Un & Up & [(-> & -> & -> & -> & Hh & Po & ->)|(Nh & host & H & Hh & P)]).
    + cbn [app] in Pp. rewrite Pp, <- Es, <- Eq, <- Ef. f_equal. destruct u; cbn in *; subst; reflexivity.
    + destruct h as [|c h]; [now destruct Nh|]. rewrite H, P, Pp, <- Es, <- Eq, <- Ef. f_equal. destruct u; cbn in *; subst; reflexivity.
Qed.

(** ** The whole text *)
Lemma other_laws (fp : str -> result url url_error) : file_laws fp -> scheme_laws (parse_other fp).
Proof.
  intros K sch rest _. unfold parse_other. destruct (str_eqb sch $"file") eqn:E.
  - apply str_eqb_eq in E. subst sch. apply K.
  - destruct (parse_other_query _) as [oq of]. destruct (starts_with $"//" _).
    + unfold parse_other_authority. destruct (parse_userinfo _) as [[n pw] hps]. destruct (_ && _); [easy|]. destruct (split_host false hps) as [h p]. destruct h.
      * destruct p; [|easy]. destruct n; [|easy]. destruct pw; [easy|]. split; [easy|]. intros u H. now injection H as <-.
      * destruct (opaque_host _); [|easy]. destruct (parse_other_port _ _) as [[]|]; [|easy]. split; [easy|]. intros u H. now injection H as <-.
    + destruct (starts_with $"/" _); (split; [easy|]; intros u H; now injection H as <-).
Qed.
Lemma two_slashes (s : str) : starts_with $"//" s = true <-> exists p, s = $"//" ++ p.
Proof. apply starts_with_spec. Qed.
Lemma parse_other_iff (fp : str -> result url url_error) (sch s : str) (u : url) : sch <> $"file" ->
  (parse_other fp sch s = Ok u <->
   u_scheme u = sch /\ exists before q f, s = before ++ q ++ f
    /\ Forall (fun c => c <> "?"%char /\ c <> "#"%char) before
    /\ tail_of "?" other_query_set (u_query u) q /\ ~ In "#"%char q
    /\ tail_of "#" fragment_set (u_fragment u) f
    /\ ((exists a pt b path, before = $"//" ++ a ++ b ++ path /\ u_has_authority u = true
          /\ ~ In "/"%char (a ++ b) /\ other_authority (u_scheme u) a pt u
          /\ (b = [] \/ pt <> [] /\ ~ In "@"%char b /\ exists b', b = "\"%char :: b')
          /\ (a = $"@" -> path ++ q ++ f = [])
          /\ ((path = [] \/ exists path', path = "/"%char :: path')
              /\ (b ++ path = [] /\ u_path u = []
                  \/ (exists p, b ++ path = "/"%char :: p /\ fwd_path_of p (u_path u))
                  \/ b <> [] /\ fwd_path_of (b ++ path) (u_path u))))
        \/ (exists p, before = "/"%char :: p /\ (forall p', p <> "/"%char :: p') /\ no_authority u /\ fwd_path_of p (u_path u))
        \/ ((forall p, before <> "/"%char :: p) /\ no_authority u /\ controls_encoded before (u_path u)))).
Proof.
  intro Nf. assert (E : str_eqb sch $"file" = false). { destruct (str_eqb sch $"file") eqn:E; [|reflexivity]. now apply str_eqb_eq in E. }
  unfold parse_other. rewrite E. set (g := fun c => negb (ends_path c)). split.
  - pose proof (take_drop g s) as T. pose proof (take_while_all g s) as Tb. pose proof (drop_while_stops g s) as Ts.
    set (before := take_while g s) in *. set (after := drop_while g s) in *. apply (forallb_iff _ _ _ ends_path_iff) in Tb.
    destruct (parse_other_query after) as [oq of] eqn:Q. apply (other_query_iff after oq of Ts) in Q. destruct Q as (q & f & Ea & Tq & Nq & Tf).
    assert (Es : s = before ++ q ++ f) by (rewrite <- Ea; now symmetry).
    destruct (starts_with $"//" before) eqn:S2.
    + apply two_slashes in S2. destruct S2 as [r Er]. rewrite Er. change (skipn 2 ($"//" ++ r)) with r. intro H.
      assert (Tr : Forall (fun c => c <> "?"%char /\ c <> "#"%char) r). { rewrite Er in Tb. now apply Forall_app in Tb. } rewrite Er in Tb.
      apply (parse_authority_iff sch r _ oq of u Tr) in H. destruct H as (Hs & Ha & Hq & Hf & a & pt & b & path & -> & N & O & Tl & K & Hp & Pp).
      split; [exact Hs|]. exists before, q, f. split; [exact Es|]. rewrite Er, Hq, Hf. split; [exact Tb|]. split; [exact Tq|]. split; [exact Nq|]. split; [exact Tf|].
      left. exists a, pt, b, path. split; [reflexivity|]. split; [exact Ha|]. split; [exact N|]. split; [now rewrite Hs|]. split; [exact Tl|]. split; [|split; [exact Hp|exact Pp]].
      intro X. destruct (K X) as (-> & Y). rewrite Ea in Y. destruct (q ++ f) as [|c z] eqn:Z; [reflexivity|discriminate Y].
    + destruct (starts_with $"/" before) eqn:S1.
      * apply starts_with_spec in S1. destruct S1 as [r Er]. rewrite Er. cbn [skipn app s2b list_ascii_of_string]. intro H. injection H as <-.
        split; [reflexivity|]. exists before, q, f. split; [exact Es|]. cbn [u_query u_fragment u_path]. split; [exact Tb|]. split; [exact Tq|]. split; [exact Nq|]. split; [exact Tf|].
        right. left. exists r. split; [exact Er|]. split.
        { intros p' ->. rewrite Er in S2. discriminate S2. }
        split; [repeat split|now apply fwd_path_iff].
      * intro H. injection H as <-. split; [reflexivity|]. exists before, q, f. split; [exact Es|]. cbn [u_query u_fragment u_path]. split; [exact Tb|]. split; [exact Tq|]. split; [exact Nq|]. split; [exact Tf|].
        right. right. split; [|split; [repeat split|now apply controls_iff]]. intros p X. rewrite X in S1. discriminate S1.
  - intros (Hs & before & q & f & -> & Fb & Tq & Nq & Tf & H).
    assert (Sq : stops g (q ++ f)).
    { apply stops_app; [now apply (tail_stops "?" other_query_set (u_query u))|now apply (tail_stops "#" fragment_set (u_fragment u))]. }
    pose proof (proj2 (forallb_iff _ _ _ ends_path_iff) Fb) as Gb. rewrite take_while_app, drop_while_app by assumption.
    assert (Q : parse_other_query (q ++ f) = (u_query u, u_fragment u)). { apply other_query_iff; [exact Sq|]. exists q, f. auto. }
    rewrite Q. destruct H as [(a & pt & b & path & Eb & Ha & N & O & Tl & K & Hp & Pp)|[(p & Eb & Np & (Ha & Un & Up & Hh & Po) & F)|(Np & (Ha & Un & Up & Hh & Po) & F)]].
    + rewrite Eb. change (starts_with $"//" ($"//" ++ a ++ b ++ path)) with true. change (skipn 2 ($"//" ++ a ++ b ++ path)) with (a ++ b ++ path). cbv iota.
      assert (Fr : Forall (fun c => c <> "?"%char /\ c <> "#"%char) (a ++ b ++ path)). { rewrite Eb in Fb. now apply Forall_app in Fb. } subst sch.
      apply (parse_authority_iff (u_scheme u) (a ++ b ++ path) _ _ _ u Fr). repeat (split; [reflexivity || assumption|]). exists a, pt, b, path. repeat (split; [reflexivity || assumption|]).
      split; [|split; [exact Hp|exact Pp]]. intro X. specialize (K X). apply app_eq_nil in K. destruct K as (-> & ->). now split.
    + rewrite Eb. assert (S2 : starts_with $"//" ("/"%char :: p) = false).
      { destruct (starts_with $"//" ("/"%char :: p)) eqn:S2; [|reflexivity]. apply two_slashes in S2. destruct S2 as [r X]. injection X as ->. now destruct (Np r). }
      rewrite S2. change (starts_with $"/" ("/"%char :: p)) with true. cbn [skipn]. cbv iota. apply fwd_path_iff in F. rewrite <- F, <- Hs. destruct u; cbn in *; subst; reflexivity.
    + assert (S1 : starts_with $"/" before = false).
      { destruct (starts_with $"/" before) eqn:S1; [|reflexivity]. apply starts_with_spec in S1. destruct S1 as [r X]. now destruct (Np r). }
      assert (S2 : starts_with $"//" before = false).
      { destruct (starts_with $"//" before) eqn:S2; [|reflexivity]. apply two_slashes in S2. destruct S2 as [r X]. now destruct (Np ("/"%char :: r)). }
      rewrite S2, S1. apply controls_iff in F. rewrite <- F, <- Hs. destruct u; cbn in *; subst; reflexivity.
Qed.
Lemma other_parse_iff (hp : host_parser) (fp : str -> result url url_error) (s : str) (u : url) : file_laws fp ->
  (url_parse hp (parse_other fp) s = Ok u /\ ~ special (u_scheme u) /\ u_scheme u <> $"file" <-> other_url s u).
Proof.
  intro KF. split.
  - intros (H & Ns & Nf). unfold url_parse in H. destruct (parse_scheme (clean_input s)) as [[sch' rest]|] eqn:P; [|discriminate].
    apply parse_scheme_iff in P. destruct P as (sch & Et & T & L). destruct (default_port sch') as [dp|] eqn:D.
    + exfalso. apply Ns. assert (Hu : u_scheme u = sch').
      { unfold parse_special in H. destruct (parse_userinfo _) as [[n pw] hps]. destruct (split_host false hps) as [h p].
        destruct h as [|c h]; [discriminate|]. destruct (hp (c :: h)); [|discriminate]. destruct (parse_port sch' p); [|discriminate].
        destruct (parse_query _) as [oq of]. now injection H as <-. }
      rewrite Hu. apply special_iff. congruence.
    + assert (Nf' : sch' <> $"file"). { intros ->. apply Nf. unfold parse_other in H. change (str_eqb $"file" $"file") with true in H. now apply KF in H. }
      apply (parse_other_iff fp sch' rest u Nf') in H. destruct H as (Hs & before & q & f & -> & H). subst sch'.
      exists (clean_input s), sch, before, q, f. split; [now apply clean_iff|]. repeat (split; [assumption|]). exact H.
  - intros (t & sch & before & q & f & I & -> & T & L & Ns & Nf & H). split; [|now split]. unfold url_parse. apply clean_iff in I. rewrite <- I.
    assert (P : parse_scheme (sch ++ $":" ++ before ++ q ++ f) = Some (u_scheme u, before ++ q ++ f)) by (apply parse_scheme_iff; eauto).
    rewrite P. destruct (default_port (u_scheme u)) eqn:D; [exfalso; apply Ns, special_iff; congruence|].
    apply (parse_other_iff fp _ _ u Nf). split; [reflexivity|]. exists before, q, f. split; [reflexivity|]. exact H.
Qed.
