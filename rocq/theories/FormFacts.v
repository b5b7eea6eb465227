(** What the validator makes of the forms of request targets (C98). *)
From Verif Require Export OtherFacts.
From Verif Require Import SpecOther UrlFacts UrlNormal TargetFacts MockFacts LineFacts SpecLine.

Lemma read_absolute (trace : bool) (hp : host_parser) (fp : str -> result url url_error) (s : str) (r : mock) : file_laws fp ->
  from_reader trace (url_parse hp (parse_other fp)) s = Done (Some r) -> has_scheme (mr_path r) ->
  special_url hp (mr_path r) (mr_url r) \/ other_url (mr_path r) (mr_url r) \/ u_scheme (mr_url r) = $"file".
Proof.
  intros K H S. apply read_accepts in H. destruct H as (_ & _ & [U|(E & _)]).
  - destruct (str_eq_dec (u_scheme (mr_url r)) $"file") as [F|F]; [now right; right|].
    destruct (default_port (u_scheme (mr_url r))) as [d|] eqn:D.
    + left. apply (parser_spec hp (parse_other fp)); [now apply other_laws|]. split; [exact U|]. apply special_iff. congruence.
    + right. left. apply (other_parse_iff hp fp _ _ K). split; [exact U|]. split; [|exact F]. rewrite special_iff. congruence.
  - apply (relative_iff hp (parse_other fp)) in E; [contradiction|now apply other_laws].
Qed.
Lemma read_relative (trace : bool) (hp : host_parser) (sp : scheme_parser) (s : str) (r : mock) : scheme_laws sp ->
  from_reader trace (url_parse hp sp) s = Done (Some r) -> ~ has_scheme (mr_path r) ->
  exists v, first_value (mr_headers r) $"host" = Some v /\ special_url hp ($"http://" ++ v ++ mr_path r) (mr_url r).
Proof.
  intros K H S. apply read_accepts in H. destruct H as (_ & _ & [U|(_ & v & F & _ & U)]).
  - apply (relative_iff hp sp _ K) in S. congruence.
  - exists v. split; [exact F|]. change ($"http://" ++ v ++ mr_path r) with ($"http:" ++ $"//" ++ v ++ mr_path r) in *. now apply http_text in U.
Qed.
Lemma join_only (t1 t2 : bool) (hp : host_parser) (sp : scheme_parser) (s1 s2 : str) (r1 r2 : mock) (v1 v2 : str) : scheme_laws sp ->
  from_reader t1 (url_parse hp sp) s1 = Done (Some r1) -> from_reader t2 (url_parse hp sp) s2 = Done (Some r2) ->
  ~ has_scheme (mr_path r1) -> ~ has_scheme (mr_path r2) ->
  first_value (mr_headers r1) $"host" = Some v1 -> first_value (mr_headers r2) $"host" = Some v2 ->
  v1 ++ mr_path r1 = v2 ++ mr_path r2 ->
  mr_url r1 = mr_url r2 /\ forall d, it_bare (dc_item d) <> BString $"@method" -> mr_derive r1 (CDerived d) = mr_derive r2 (CDerived d).
Proof.
  intros K H1 H2 N1 N2 V1 V2 E. apply (read_relative _ _ _ _ _ K) in H1; [|exact N1]. apply (read_relative _ _ _ _ _ K) in H2; [|exact N2].
  destruct H1 as (w1 & F1 & U1), H2 as (w2 & F2 & U2). rewrite V1 in F1. rewrite V2 in F2. injection F1 as <-. injection F2 as <-. rewrite E in U1.
  assert (Eu : mr_url r1 = mr_url r2) by exact (special_url_fun _ _ _ _ U1 U2). split; [exact Eu|].
  intros d N. unfold mr_derive, mr_host. rewrite Eu. unfold dc_derive, dc_name. destruct (it_bare (dc_item d)) as [| |n| | |]; cbn [as_str unwrap obind]; try reflexivity.
  f_equal. destruct (str_eqb n AT_METHOD) eqn:M; [|reflexivity]. apply str_eqb_eq in M. subst n. now destruct N.
Qed.

(** ** Authority-form *)
Lemma authority_form_input (t n port : str) : authority_form t n port -> url_input t t.
Proof.
  intros (name & -> & (_ & S) & _ & _ & _ & D). apply visible_input. apply Forall_app. split.
  - eapply Forall_impl; [|exact S]. cbn. intros c [L|[L|L]]; [unfold letter in L; lia|unfold digit in L; lia|].
    destruct L as [<-|[<-|[<-|[]]]]; cbn; lia.
  - constructor; [cbn; lia|]. eapply Forall_impl; [|exact D]. cbn. unfold digit. lia.
Qed.
Lemma authority_form_url (t n port : str) : authority_form t n port -> other_url t (Url n false [] None None None port None None).
Proof.
  intro A. pose proof (authority_form_input t n port A) as I. destruct A as (name & -> & S & L & N1 & N2 & D).
  exists (name ++ ":"%char :: port), name, port, [], []. split; [exact I|]. split; [now rewrite !app_nil_r|]. split; [exact S|]. split; [exact L|]. split; [exact N1|]. split; [exact N2|].
  split.
  { eapply Forall_impl; [|exact D]. cbn. unfold digit. intros c Hc. split; intros ->; cbn in Hc; lia. }
  split; [reflexivity|]. split; [easy|]. split; [reflexivity|]. right. right. split; [|split; [repeat split|]].
  - intros p ->. inversion D as [|x y Hd _]. unfold digit in Hd. cbn in Hd. lia.
  - cbn [u_path]. clear - D. induction D as [|c s Hc _ IH]; constructor; [unfold digit in Hc; lia|exact IH].
Qed.
Lemma read_authority_form (trace : bool) (hp : host_parser) (fp : str -> result url url_error) (s : str) (r : mock) (n port : str) : file_laws fp ->
  frames s r -> loggable trace r -> authority_form (mr_path r) n port ->
  let r' := with_url r (Url n false [] None None None port None None) in
  from_reader trace (url_parse hp (parse_other fp)) s = Done (Some r')
  /\ forall p, mr_derive r' (derived_named $"@scheme" p) = Done (Some n) /\ mr_derive r' (derived_named $"@path" p) = Done (Some port)
     /\ mr_derive r' (derived_named $"@query" p) = Done None
     /\ mr_derive r' (derived_named $"@request-target" p) = Done (Some (n ++ $":" ++ port))
     /\ mr_derive r' (derived_named $"@target-uri" p) = Done (Some (n ++ $":" ++ port)).
Proof.
  intros K F L A r'. split.
  - apply read_accepts. split; [exact F|]. split; [exact L|]. left. apply (authority_form_url _ _ _) in A. apply (other_parse_iff hp fp _ _ K) in A. exact (proj1 A).
  - destruct A as (name & _ & _ & _ & _ & _ & D). assert (P : starts_with $"//" port = false).
    { destruct (starts_with $"//" port) eqn:B; [|reflexivity]. apply starts_with_spec in B. destruct B as [x ->]. inversion D as [|y z Hd _]. unfold digit in Hd. cbn in Hd. lia. }
    assert (T : url_to_string (mr_url r') = n ++ $":" ++ port).
    { unfold url_to_string. subst r'. cbn [with_url mr_url u_scheme u_has_authority u_path u_query u_fragment opt_str]. rewrite P. cbn [app]. now rewrite !app_nil_r. }
    intro p. destruct (mr_line r' p) as (_ & D1 & D2 & D3 & D4 & D5 & _). cbv zeta in *. subst r'. repeat split; auto; [apply D5|apply D4]; now apply url_text_iff.
Qed.

(** ** Behind the Host header *)
Lemma parts_http (hp : host_parser) (v x more : str) (u : url) : v <> [] -> plain_part v -> plain_part x ->
  (more = [] \/ exists c m, more = c :: m /\ (slash c \/ one_of "?#" c)) -> Forall (fun c => ~ low c) more ->
  special_url hp ($"http://" ++ v ++ x ++ more) u -> parse_special hp $"http" ((v ++ x) ++ more) = Ok u.
Proof.
  intros Nv Pv Px M Lm U.
  assert (V : forall y, plain_part y -> Forall (fun c => ~ low c) y) by (intros y H; eapply Forall_impl; [|exact H]; unfold low; cbn; lia).
  change ($"http://" ++ v ++ x ++ more) with ($"http:" ++ $"//" ++ v ++ x ++ more) in U. apply (http_text hp (fun _ _ => Err UrlOther)) in U.
  assert (C : clean_input ($"http:" ++ $"//" ++ v ++ x ++ more) = $"http:" ++ $"//" ++ v ++ x ++ more).
  { symmetry. apply clean_iff, plain_input. repeat (apply Forall_app; split); auto; repeat constructor; unfold low; cbn; lia. }
  unfold url_parse in U. rewrite C in U. change (parse_scheme ($"http:" ++ $"//" ++ v ++ x ++ more)) with (Some ($"http", $"//" ++ v ++ x ++ more)) in U.
  change (default_port $"http") with (Some 80%N) in U. cbv iota in U. rewrite drop_while_app in U; [rewrite <- app_assoc; exact U|reflexivity|].
  destruct v as [|c v]; [now destruct Nv|]. cbn [app stops]. inversion Pv as [|y z (_ & Hs & _) _]. now apply slash_false.
Qed.
Lemma parts_authority (v x more : str) : plain_part v -> plain_part x ->
  (more = [] \/ exists c m, more = c :: m /\ (slash c \/ one_of "?#" c)) ->
  take_while (fun c => negb (ends_authority c)) ((v ++ x) ++ more) = v ++ x /\ drop_while (fun c => negb (ends_authority c)) ((v ++ x) ++ more) = more
  /\ parse_userinfo (v ++ x) = ([], None, v ++ x).
Proof.
  intros Pv Px M. assert (P : plain_part (v ++ x)) by now apply Forall_app.
  assert (G : forallb (fun c => negb (ends_authority c)) (v ++ x) = true).
  { apply (forallb_iff _ _ _ ends_authority_iff). eapply Forall_impl; [|exact P]. cbn. intros c (_ & S & O). split; [exact S|]. split; intros ->; apply O; unfold one_of; cbn; tauto. }
  assert (S : stops (fun c => negb (ends_authority c)) more).
  { destruct M as [-> |(c & m & -> & M)]; [exact I|]. cbn [stops]. apply negb_false_iff. unfold ends_authority, ends_path. rewrite !orb_true_iff, !Ascii.eqb_eq.
    destruct M as [M|[<-|[<-|[]]]]; [left; now apply slash_iff|auto|auto]. }
  split; [now apply take_while_app|]. split; [now apply drop_while_app|]. apply userinfo_iff. left. repeat split.
  intro I. unfold plain_part in P. rewrite Forall_forall in P. apply P in I. destruct I as (_ & _ & O). apply O. unfold one_of. cbn. tauto.
Qed.
Lemma plain_visible (v : str) : plain_part v -> Forall (fun c => visible c \/ c = ascii_of_nat 9) v.
Proof. intro P. eapply Forall_impl; [|exact P]. cbn. intros c (H & _). left. unfold visible. lia. Qed.
Lemma port_then_target (trace : bool) (hp : host_parser) (sp : scheme_parser) (s : str) (r : mock) (h ds x more : str) : scheme_laws sp ->
  frames s r -> ~ has_scheme (mr_path r) -> first_value (mr_headers r) $"host" = Some (h ++ ":"%char :: ds) ->
  host_text h (":"%char :: ds) -> plain_part (h ++ ":"%char :: ds) ->
  mr_path r = x ++ more -> plain_part x -> (exists c, In c x /\ ~ digit c) ->
  (more = [] \/ exists c m, more = c :: m /\ (slash c \/ one_of "?#" c)) -> Forall (fun c => ~ low c) more ->
  from_reader trace (url_parse hp sp) s = Panic.
Proof.
  intros K F N V (Nh & e & B & Te) Pv E Px (c & I & Nc) M Lm. apply (read_panics_url trace hp sp s K). exists r. split; [exact F|]. right. split; [exact N|].
  exists (h ++ ":"%char :: ds). split; [exact V|]. split; [now apply plain_visible|]. intros u U. rewrite E in U.
  apply parts_http in U; auto; [|now destruct h]. destruct (parts_authority _ x more Pv Px M) as (A1 & A2 & A3).
  unfold parse_special in U. rewrite A1, A2, A3 in U.
  assert (S : split_host false ((h ++ ":"%char :: ds) ++ x) = (h, ":"%char :: ds ++ x)).
  { apply split_host_iff. split; [rewrite <- app_assoc; reflexivity|]. split; [right; eauto|]. exists e. split; [exact B|]. destruct Te as [X|X]; [discriminate X|now right]. }
  rewrite S in U. destruct h as [|c0 h]; [now destruct Nh|]. destruct (hp (c0 :: h)); [|discriminate U].
  destruct (parse_port $"http" (":"%char :: ds ++ x)) as [o|] eqn:P; [|discriminate U].
  apply parse_port_iff in P; [|right; eauto]. apply port_digits in P. rewrite forallb_forall in P. apply Nc.
  specialize (P c). rewrite in_app_iff in P. specialize (P (or_intror I)). unfold is_digit, in_range, code in P. unfold digit. lia.
Qed.

(** ** Asterisk-form *)
Lemma no_colon_bracketed (s : str) : ~ In ":"%char s -> forall b, exists e, bracketed b s e.
Proof.
  induction s as [|c s IH]; intros N b; [exists b; constructor|].
  assert (Ns : ~ In ":"%char s) by (intro I; apply N; now right). assert (Nc : c <> ":"%char) by (intros ->; apply N; now left).
  destruct (ascii_dec c "[") as [->|N1]; [destruct (IH Ns true) as [e H]; exists e; now constructor|].
  destruct (ascii_dec c "]") as [->|N2]; [destruct (IH Ns false) as [e H]; exists e; now constructor|].
  destruct (IH Ns b) as [e H]. exists e. now constructor.
Qed.
Lemma star_relative (hp : host_parser) (sp : scheme_parser) : scheme_laws sp -> ~ has_scheme $"*".
Proof. intro K. apply (relative_iff hp sp _ K). reflexivity. Qed.
Lemma star_plain : plain_part $"*".
Proof.
  repeat constructor; [cbn; lia|cbn; lia|intros [X|X]; discriminate X|]. unfold one_of. cbn. intuition discriminate.
Qed.
Lemma star_special (hp : host_parser) (v : str) : v <> [] -> plain_part v -> ~ In ":"%char v ->
  parse_special hp $"http" ((v ++ $"*") ++ []) =
  match hp (v ++ $"*") with Some host => Ok (Url $"http" true [] None (Some host) None $"/" None None) | None => Err UrlOther end.
Proof.
  intros Nv Pv Nc. destruct (parts_authority v $"*" [] Pv star_plain (or_introl eq_refl)) as (A1 & A2 & A3).
  unfold parse_special. rewrite A1, A2, A3.
  assert (N : ~ In ":"%char (v ++ $"*")). { rewrite in_app_iff. intros [I|[I|[]]]; [contradiction|discriminate I]. }
  destruct (no_colon_bracketed _ N false) as [e B].
  assert (S : split_host false (v ++ $"*") = (v ++ $"*", [])). { apply split_host_iff. split; [now rewrite app_nil_r|]. split; [now left|]. exists e. split; [exact B|now left]. }
  rewrite S. destruct (v ++ $"*") as [|c w] eqn:Ev; [now destruct v|]. destruct (hp (c :: w)); reflexivity.
Qed.
Lemma read_asterisk (trace : bool) (hp : host_parser) (sp : scheme_parser) (s : str) (r : mock) (v : str) : scheme_laws sp ->
  frames s r -> loggable trace r -> mr_path r = $"*" -> first_value (mr_headers r) $"host" = Some v -> v <> [] -> plain_part v -> ~ In ":"%char v ->
  from_reader trace (url_parse hp sp) s =
    match hp (v ++ $"*") with
    | Some host => Done (Some (with_url r (Url $"http" true [] None (Some host) None $"/" None None)))
    | None => Panic
    end.
Proof.
  intros K F L E V Nv Pv Nc. pose proof (star_special hp v Nv Pv Nc) as S. destruct (hp (v ++ $"*")) as [host|].
  - apply read_accepts. split; [exact F|]. split; [exact L|]. right. cbn [with_url mr_path mr_headers mr_url]. rewrite E. split; [reflexivity|].
    exists v. split; [exact V|]. split; [now apply plain_visible|].
    assert (C : clean_input ($"http:" ++ $"//" ++ v ++ $"*") = $"http:" ++ $"//" ++ v ++ $"*").
    { symmetry. apply clean_iff, plain_input. repeat (apply Forall_app; split); [repeat constructor; unfold low; cbn; lia|repeat constructor; unfold low; cbn; lia| |repeat constructor; unfold low; cbn; lia].
      eapply Forall_impl; [|exact Pv]. unfold low. cbn. lia. }
    change ($"http://" ++ v ++ $"*") with ($"http:" ++ $"//" ++ v ++ $"*"). unfold url_parse. rewrite C.
    change (parse_scheme ($"http:" ++ $"//" ++ v ++ $"*")) with (Some ($"http", $"//" ++ v ++ $"*")). change (default_port $"http") with (Some 80%N). cbv iota.
    rewrite app_nil_r in S. rewrite drop_while_app; [exact S|reflexivity|]. destruct v as [|c v]; [now destruct Nv|]. cbn [app stops]. inversion Pv as [|y z (_ & Hs & _) _]. now apply slash_false.
  - apply (read_panics_url trace hp sp s K). exists r. split; [exact F|]. right. rewrite E. split; [now apply (star_relative hp sp)|]. exists v. split; [exact V|]. split; [now apply plain_visible|].
    intros u U. change ($"http://" ++ v ++ $"*") with ($"http://" ++ v ++ $"*" ++ []) in U. apply parts_http in U; auto using star_plain.
    rewrite S in U. discriminate U.
Qed.
