(** Lemmas about HostParse.v: hosts, and the laws the URL parser expects of its argument. *)
From Verif Require Export Ipv6Facts.
From Verif Require Import TargetFacts SpecFacts.

(** ** The text of an IPv4 address *)
Lemma dec_c_number (n : N) : c_number (dec_of_N n) n.
Proof.
  apply c_decimal; [apply dec_of_N_ne| |apply dec_numeral]. intros t Nt E. apply Nt. now apply dec_of_N_no_zero with (n := n).
Qed.
Lemma ipv4_text_reads (n : N) : (n < 2 ^ 32)%N -> ipv4_reads (ipv4_text n) n.
Proof.
  intro L. unfold ipv4_text. rewrite !N.shiftr_div_pow2. set (a := (n / 2 ^ 24 mod 256)%N). set (b := (n / 2 ^ 16 mod 256)%N). set (c := (n / 2 ^ 8 mod 256)%N).
  set (d := (n mod 256)%N). exists (map dec_of_N [a; b; c]), (dec_of_N d), [a; b; c], d, [].
  split; [rewrite app_nil_r, dotted_join; reflexivity|]. split; [now left|]. split; [cbn; lia|].
  split; [do 3 (apply Forall2_cons; [apply dec_c_number|]); apply Forall2_nil|]. split; [apply dec_c_number|].
  assert (B : forall k, (n / k mod 256 < 256)%N) by (intro k; apply N.mod_lt; lia).
  assert (Bd : (d < 256)%N) by (apply N.mod_lt; lia).
  split; [repeat constructor; apply B|]. split; [exact Bd|].
  cbn [bytes_value Nat.sub]. change (256 ^ N.of_nat 3)%N with 16777216%N. change (256 ^ N.of_nat 2)%N with 65536%N. change (256 ^ N.of_nat 1)%N with 256%N.
  unfold a, b, c, d. change (2 ^ 24)%N with 16777216%N. change (2 ^ 16)%N with 65536%N. change (2 ^ 8)%N with 256%N. change (2 ^ 32)%N with 4294967296%N in L.
  clear - L. zify. Z.to_euclidean_division_equations. lia.
Qed.
Lemma bytes_value_lt (bytes : list N) : forall (m : N) (k : nat), (List.length bytes <= k)%nat -> Forall (fun b => (b < 256)%N) bytes ->
  (m < 256 ^ N.of_nat (S k - List.length bytes))%N -> (bytes_value bytes m k < 256 ^ N.of_nat (S k))%N.
Proof.
  induction bytes as [|b bytes IH]; intros m k L F M; [exact M|]. cbn [List.length] in L. inversion F as [|b' bs Hb F']; subst.
  cbn [bytes_value]. destruct k as [|k]; [lia|]. specialize (IH m k). replace (S k - 1)%nat with k by lia.
  replace (N.of_nat (S (S k))) with (N.succ (N.of_nat (S k))) by lia. rewrite N.pow_succ_r'.
  assert (V : (bytes_value bytes m k < 256 ^ N.of_nat (S k))%N) by (apply IH; [lia|exact F'|exact M]).
  revert V. generalize (256 ^ N.of_nat (S k))%N (bytes_value bytes m k). intros p q V. nia.
Qed.
Lemma ipv4_reads_lt (s : str) (n : N) : ipv4_reads s n -> (n < 2 ^ 32)%N.
Proof.
  intros (parts & last & bytes & m & t & _ & _ & L & F & _ & B & M & ->). apply Forall2_length in F. rewrite F in *.
  change (2 ^ 32)%N with (256 ^ N.of_nat 4)%N. apply bytes_value_lt; auto.
Qed.
Lemma ipv4_looks (s : str) (n : N) : ipv4_reads s n -> looks_ipv4 s.
Proof.
  intros (parts & last & bytes & m & t & -> & T & _ & _ & Lm & _). destruct (c_number_dots _ _ Lm) as [Nl Dl].
  assert (X : exists before, dotted (parts ++ [last]) = before ++ last /\ (before = [] \/ exists b, before = b ++ $".")).
  { clear - Nl. induction parts as [|x parts IH].
    - exists []. split; [reflexivity|now left].
    - destruct IH as (before & E & B). exists (x ++ $"." ++ before). split.
      + cbn [app dotted]. destruct (parts ++ [last]) as [|y l] eqn:P; [destruct parts; discriminate|]. rewrite E. now rewrite <- !app_assoc.
      + right. destruct B as [-> | (b & ->)]; [exists x; now rewrite app_nil_r|]. exists (x ++ $"." ++ b). now rewrite <- !app_assoc. }
  destruct X as (before & -> & B). exists before, last, t. rewrite <- app_assoc. repeat split; auto. right. now exists m.
Qed.

(** ** Names *)
Lemma unpercent_decode (s d : str) : unpercent s d -> d = percent_decode s.
Proof.
  induction 1 as [|h l x y c s d Hh Hl Hc _ IH|c s d N' _ IH].
  - reflexivity.
  - apply hex_digit_iff in Hh. apply hex_digit_iff in Hl.
    rewrite (pd_hex _ _ _ x y) by assumption. rewrite <- IH. f_equal. apply code_inj.
    pose proof (hex_val_lt _ _ Hh). pose proof (hex_val_lt _ _ Hl). rewrite code_of by lia. unfold code. lia.
  - destruct (Ascii.eqb c "%") eqn:P.
    + apply Ascii.eqb_eq in P. subst c. rewrite pd_nohex; [now rewrite <- IH|].
      intros h l s' x y Es H1 H2. apply N'. split; [reflexivity|]. exists h, l, s', x, y. split; [exact Es|]. split; now apply hex_digit_iff.
    + rewrite pd_other by exact P. now rewrite <- IH.
Qed.
Lemma unpercent_exists (n : nat) : forall s : str, (List.length s <= n)%nat -> exists d, unpercent s d.
Proof.
  induction n as [|n IH]; intros s L.
  - destruct s; [|cbn in L; lia]. exists []. constructor.
  - destruct s as [|c s]; [exists []; constructor|].
    assert (X : (c = "%"%char /\ exists h l s' x y, s = h :: l :: s' /\ hex_digit h x /\ hex_digit l y)
      \/ ~ (c = "%"%char /\ exists h l s' x y, s = h :: l :: s' /\ hex_digit h x /\ hex_digit l y)).
    { destruct (ascii_dec c "%"%char) as [->|N']; [|right; intros [E _]; contradiction].
      destruct s as [|h [|l s']]; [right; intros (_ & h1 & l1 & s1 & x1 & y1 & E & _); discriminate..|].
      destruct (hex_val h) as [x|] eqn:E1.
      2:{ right. intros (_ & h' & l' & s'' & x & y & E & H1 & _). injection E as <- <- <-. apply hex_digit_iff in H1. congruence. }
      destruct (hex_val l) as [y|] eqn:E2.
      2:{ right. intros (_ & h' & l' & s'' & x' & y & E & _ & H2). injection E as <- <- <-. apply hex_digit_iff in H2. congruence. }
      left. split; [reflexivity|]. exists h, l, s', x, y. split; [reflexivity|]. split; now apply hex_digit_iff. }
    destruct X as [(-> & h & l & s' & x & y & -> & H1 & H2)|X].
    + destruct (IH s') as [d D]; [cbn in L; lia|]. exists (ascii_of_N (16 * x + y) :: d). econstructor; try eassumption.
      apply hex_digit_iff in H1. apply hex_digit_iff in H2. pose proof (hex_val_lt _ _ H1). pose proof (hex_val_lt _ _ H2).
      change (code (ascii_of_N (16 * x + y)) = (16 * x + y)%N). apply code_of. lia.
    + destruct (IH s) as [d D]; [cbn in L; lia|]. exists (c :: d). now constructor.
Qed.
Lemma unpercent_iff (s d : str) : unpercent s d <-> d = percent_decode s.
Proof.
  split; [apply unpercent_decode|]. intros ->. destruct (unpercent_exists (List.length s) s) as [d D]; [lia|].
  now rewrite <- (unpercent_decode s d D).
Qed.
Lemma mapped_iff (idna : str -> option str) (s d : str) : mapped idna s d <-> idna (from_utf8_lossy (percent_decode s)) = Some d.
Proof.
  unfold mapped. split.
  - intros (b & t & U & V & H). apply unpercent_iff in U. subst b. apply lossy_iff in V. now subst t.
  - intro H. exists (percent_decode s), (from_utf8_lossy (percent_decode s)). split; [now apply unpercent_iff|]. split; [now apply lossy_iff|exact H].
Qed.
Lemma forbidden_iff (c : ascii) : invalid_domain_char c = true <-> forbidden c.
Proof.
  unfold invalid_domain_char, forbidden, one_of, code. rewrite !orb_true_iff, existsb_exists. split.
  - intros [[H|H]|(x & I & E)]; [left; lia|right; left; lia|]. apply Ascii.eqb_eq in E. subst x. right. now right.
  - intros [H|[H|H]]; [left; left; lia|left; right; lia|right]. exists c. split; [exact H|apply Ascii.eqb_refl].
Qed.
Lemma no_forbidden (d : str) : existsb invalid_domain_char d = false <-> Forall (fun c => ~ forbidden c) d.
Proof.
  rewrite Forall_forall, <- not_true_iff_false, existsb_exists. split.
  - intros H c I F. apply H. exists c. split; [exact I|now apply forbidden_iff].
  - intros H (c & I & F). apply forbidden_iff in F. now apply (H c).
Qed.
Lemma bracket_iff (s x : str) : rev s = "]"%char :: rev ("["%char :: x) <-> s = $"[" ++ x ++ $"]".
Proof.
  split; intro H.
  - rewrite <- (rev_involutive s), H. cbn [rev]. now rewrite rev_app_distr, rev_involutive.
  - subst s. cbn [rev app s2b list_ascii_of_string]. rewrite rev_app_distr. reflexivity.
Qed.
Lemma host_iff (idna : str -> option str) (s : str) (h : host) : host_parse idna s = Some h <-> host_reads idna s h.
Proof.
  unfold host_parse. destruct (starts_with $"[" s) eqn:B.
  - apply starts_with_spec in B. destruct B as [s' Es]. cbn [app s2b list_ascii_of_string] in Es. subst s. split.
    + destruct (rev ("["%char :: s')) as [|e t] eqn:R; [discriminate|]. intro H.
      assert (E : e = "]"%char). { destruct (ascii_dec e "]") as [|Ne]; [assumption|]. exfalso. revert H Ne. clear. destruct e as [[] [] [] [] [] [] [] []]; intros H Ne; try discriminate H. now apply Ne. }
      subst e. destruct t as [|y t]; [discriminate|].
      assert (Et : exists x, y :: t = rev ("["%char :: x)).
      { apply (f_equal (@rev ascii)) in R. rewrite rev_involutive in R. cbn [rev] in R.
        destruct (rev t ++ [y]) as [|z x] eqn:Z; [destruct (rev t); discriminate|]. injection R as <- _. exists x. rewrite <- Z, rev_app_distr, rev_involutive. reflexivity. }
      destruct Et as [x Et]. rewrite Et in R, H. apply bracket_iff in R. rewrite R. rewrite rev_involutive in H. cbn [skipn] in H.
      destruct (parse_ipv6addr x) as [p|] eqn:P; [|discriminate]. injection H as <-. constructor. now apply ipv6_iff.
    + intro H. remember ("["%char :: s') as s eqn:Es. destruct H as [s p H|s d n N1|s d N1].
      * pose proof (proj2 (bracket_iff _ s) eq_refl) as R. rewrite R. destruct (rev ("["%char :: s)) as [|y t] eqn:Z.
        { cbn [rev] in Z. destruct (rev s); discriminate. }
        rewrite <- Z, rev_involutive. cbn [skipn]. apply ipv6_iff in H. now rewrite H.
      * exfalso. now apply (N1 s').
      * exfalso. now apply (N1 s').
  - assert (Nb : forall t, s <> "["%char :: t). { intros t ->. discriminate B. }
    split.
    + destruct (idna _) as [d|] eqn:E; [|discriminate]. apply mapped_iff in E. destruct d as [|c d]; [discriminate|].
      destruct (existsb invalid_domain_char (c :: d)) eqn:F; [discriminate|]. apply no_forbidden in F.
      destruct (ends_in_a_number (c :: d)) eqn:L.
      * destruct (parse_ipv4addr (c :: d)) as [n|] eqn:P; [|discriminate]. intro H. injection H as <-. apply ipv4_iff in P. now apply reads_ipv4 with (d := c :: d).
      * intro H. injection H as <-. apply reads_domain; auto; [discriminate|]. intro X. apply ends_iff in X. congruence.
    + intro H. destruct H as [s p H|s d n N1 M F H|s d N1 M F Nd L].
      * exfalso. now apply (Nb (s ++ $"]")).
      * apply mapped_iff in M. rewrite M. apply no_forbidden in F. rewrite F. pose proof (ipv4_looks _ _ H) as L. apply ends_iff in L. rewrite L.
        apply ipv4_iff in H. rewrite H. destruct d; [discriminate|reflexivity].
      * apply mapped_iff in M. rewrite M. apply no_forbidden in F. rewrite F. destruct d as [|c d]; [congruence|].
        destruct (ends_in_a_number (c :: d)) eqn:X; [|reflexivity]. apply ends_iff in X. contradiction.
Qed.

(** ** The text of a host stands for it *)
Lemma percent_decode_id (s : str) : ~ In "%"%char s -> percent_decode s = s.
Proof.
  induction s as [|c s IH]; intro H; [reflexivity|]. rewrite pd_other; [f_equal; apply IH; intro I; apply H; now right|].
  apply Ascii.eqb_neq. intros ->. apply H. now left.
Qed.
Lemma lossy_ascii (s : str) : Forall (fun c => (N_of_ascii c < 128)%N) s -> from_utf8_lossy s = s.
Proof. intro H. symmetry. apply lossy_iff, lossy_id, utf8_ascii. exact H. Qed.
Lemma mapped_ascii (idna : str -> option str) (s d : str) : Forall (fun c => (N_of_ascii c < 128)%N) s -> ~ In "%"%char s ->
  (mapped idna s d <-> idna s = Some d).
Proof. intros A P. rewrite mapped_iff, percent_decode_id, lossy_ascii by assumption. reflexivity. Qed.
Definition number_char (c : ascii) : Prop := (48 <= N_of_ascii c <= 57)%N \/ c = "."%char.
Lemma ipv4_text_chars (n : N) : Forall number_char (ipv4_text n).
Proof.
  assert (D : forall m, Forall number_char (dec_of_N m)).
  { intro m. pose proof (dec_of_N_digits m) as H. rewrite forallb_forall in H. apply Forall_forall. intros c I. left. specialize (H c I).
    unfold is_digit, in_range, code in H. lia. }
  assert (P : Forall number_char $".") by (repeat constructor; now right).
  unfold ipv4_text. cbn [map join]. repeat (apply Forall_app; split; auto).
Qed.
Lemma ipv4_text_ne (n : N) : ipv4_text n <> [].
Proof. unfold ipv4_text. cbn [map join]. intro E. apply app_eq_nil in E. destruct E as [E _]. now apply dec_of_N_ne in E. Qed.
Lemma number_char_ok (c : ascii) : number_char c -> ~ forbidden c /\ (N_of_ascii c < 128)%N.
Proof.
  intros [H|H].
  - split; [|lia]. intros [F|[F|F]]; [lia|lia|]. unfold one_of in F. cbn in F. repeat (destruct F as [<-|F]; [cbn in H; lia|]). exact F.
  - subst c. split; [|cbn; lia]. intros [F|[F|F]]; [cbn in F; lia|discriminate F|]. cbn in F. repeat (destruct F as [F|F]; [discriminate F|]). exact F.
Qed.
Lemma not_open (s : str) : Forall (fun c => ~ forbidden c) s -> forall t, s <> "["%char :: t.
Proof.
  intros F t ->. inversion F as [|c s H _]; subst. apply H. right. right. cbn. tauto.
Qed.
Lemma not_percent (s : str) : Forall (fun c => ~ forbidden c) s -> ~ In "%"%char s.
Proof. intros F I. rewrite Forall_forall in F. apply F in I. apply I. right. right. cbn. tauto. Qed.
Lemma shown_reads (idna : str -> option str) (s : str) (h : host) : idna_laws idna -> host_reads idna s h -> host_reads idna (host_show h) h.
Proof.
  intros [IA IG ID] H. destruct H as [s p H|s d n N1 M F H|s d N1 M F Nd L]; cbn [host_show].
  - apply reads_ipv6. apply ipv6_text_reads. now apply ipv6_reads_ok with (s := s).
  - pose proof (ipv4_text_chars n) as C.
    assert (Fo : Forall (fun c => ~ forbidden c) (ipv4_text n)) by (eapply Forall_impl; [|exact C]; intros c X; now apply number_char_ok).
    assert (A : Forall (fun c => (N_of_ascii c < 128)%N) (ipv4_text n)) by (eapply Forall_impl; [|exact C]; intros c X; now apply number_char_ok).
    apply reads_ipv4 with (d := ipv4_text n); [now apply not_open| |exact Fo|].
    + apply mapped_ascii; [exact A|now apply not_percent|]. now apply ID.
    + apply ipv4_text_reads. now apply ipv4_reads_lt with (s := d).
  - apply mapped_iff in M. apply reads_domain; auto; [now apply not_open|]. apply mapped_ascii; [now apply (IA _ _ M)|now apply not_percent|]. now apply (IG _ _ M).
Qed.
Lemma host_reads_fun (idna : str -> option str) (s : str) (g h : host) : host_reads idna s g -> host_reads idna s h -> g = h.
Proof. rewrite <- !host_iff. congruence. Qed.
Lemma shown_inj (idna : str -> option str) (s t : str) (g h : host) : idna_laws idna -> host_reads idna s g -> host_reads idna t h ->
  host_show g = host_show h -> g = h.
Proof.
  intros I G H E. apply (shown_reads idna s g I) in G. apply (shown_reads idna t h I) in H. rewrite <- E in H.
  exact (host_reads_fun idna _ _ _ G H).
Qed.

(** ** The laws *)
Lemma hex_lower_char (d : N) : (d < 16)%N -> (48 <= N_of_ascii (hex_lower d) <= 57)%N \/ (97 <= N_of_ascii (hex_lower d) <= 102)%N.
Proof.
  intro L. unfold hex_lower. change (N_of_ascii (ascii_of_N ?x)) with (code (ascii_of_N x)). 
  destruct (d <? 10)%N eqn:E.
  - left. change (48 <= code (ascii_of_N (48 + d)) <= 57)%N. rewrite code_of by lia. lia.
  - right. change (97 <= code (ascii_of_N (87 + d)) <= 102)%N. rewrite code_of by lia. lia.
Qed.
Definition group_char (c : ascii) : Prop := (48 <= N_of_ascii c <= 57)%N \/ (97 <= N_of_ascii c <= 102)%N.
Lemma drop_while_Forall (P : ascii -> Prop) (f : ascii -> bool) (s : str) : Forall P s -> Forall P (drop_while f s).
Proof. induction 1 as [|c s H F IH]; cbn [drop_while]; [constructor|]. destruct (f c); [exact IH|now constructor]. Qed.
Lemma hex_text_chars (n : N) : Forall group_char (hex_text n).
Proof.
  assert (B : forall k, (n / k mod 16 < 16)%N) by (intro k; apply N.mod_lt; lia).
  assert (B0 : (n mod 16 < 16)%N) by (apply N.mod_lt; lia).
  assert (F : Forall group_char (map hex_lower [n / 4096 mod 16; n / 256 mod 16; n / 16 mod 16; n mod 16]%N)).
  { repeat (apply Forall_cons; [apply hex_lower_char; auto|]). constructor. }
  unfold hex_text. pose proof (drop_while_Forall _ (Ascii.eqb "0") _ F) as D. destruct (drop_while _ _); [|exact D].
  constructor; [left; cbn; lia|constructor].
Qed.
Definition v6_char (c : ascii) : Prop := group_char c \/ c = ":"%char.
Lemma write_chars (r : option (nat * nat)) (p : list N) : forall i, Forall v6_char (write_ipv6 r i p).
Proof.
  assert (H : forall n, Forall v6_char (hex_text n)) by (intro n; eapply Forall_impl; [|apply hex_text_chars]; intros c X; now left).
  assert (C1 : Forall v6_char $":") by (repeat constructor; now right).
  assert (C2 : Forall v6_char $"::") by (apply Forall_forall; intros c [<-|[<-|[]]]; now right).
  assert (C3 : forall b : bool, Forall v6_char (if b then $":" else [])) by (intros []; [exact C1|constructor]).
  induction p as [|x p IH]; intro i; cbn [write_ipv6]; [constructor|].
  destruct r as [[a e]|]; [destruct ((a <=? i)%nat && (i <? e)%nat)|].
  - apply Forall_app. split; [|apply IH]. destruct (i =? a)%nat; [destruct (i =? 0)%nat; assumption|constructor].
  - repeat (apply Forall_app; split; auto).
  - repeat (apply Forall_app; split; auto).
Qed.
Lemma bracketed_in (s : str) : Forall v6_char s -> bracketed true (s ++ $"]") false.
Proof.
  induction 1 as [|c s H F IH]; cbn [app].
  - apply br_close. constructor.
  - destruct H as [H| ->]; [|now apply br_colon].
    apply br_other; [..|exact IH]; intros ->; unfold group_char in H; cbn in H; lia.
Qed.
Lemma bracketed_out (s : str) : Forall (fun c => ~ forbidden c) s -> bracketed false s false.
Proof.
  induction 1 as [|c s H F IH]; [constructor|]. apply br_other; [..|exact IH]; intros ->; apply H; right; right; cbn; tauto.
Qed.
Lemma printable_name (c : ascii) : ~ forbidden c -> (N_of_ascii c < 128)%N -> (33 <= N_of_ascii c <= 126)%N /\ ~ slash c /\ ~ one_of "?#@" c.
Proof.
  intros F A. unfold forbidden in F. split; [|split].
  - lia.
  - intro S. apply F. right. right. destruct S as [-> | ->]; cbn; tauto.
  - intro O. apply F. right. right. unfold one_of in *. cbn in O |- *. tauto.
Qed.
Lemma host_shown_laws (idna : str -> option str) (s : str) (h : host) : idna_laws idna -> host_reads idna s h ->
  host_show h <> [] /\ Forall (fun c => (33 <= N_of_ascii c <= 126)%N /\ ~ slash c /\ ~ one_of "?#@" c) (host_show h) /\ bracketed false (host_show h) false.
Proof.
  intros [IA IG ID] H. destruct H as [s p H|s d n N1 M F H|s d N1 M F Nd L]; cbn [host_show].
  - split; [discriminate|]. pose proof (write_chars (longest_zero_sequence p) p 0) as C. fold (ipv6_text p) in C. split.
    + apply Forall_app. split; [|apply Forall_app; split].
      * constructor; [|constructor]. split; [cbn; lia|]. split; [intros [S|S]; discriminate S|]. cbn. intros O. repeat (destruct O as [O|O]; [discriminate O|]). exact O.
      * eapply Forall_impl; [|exact C]. intros c [[X|X]| ->].
        1,2: split; [lia|split; [intros [-> | ->]; cbn in X; lia|]]; unfold one_of; cbn; intros O; repeat (destruct O as [<-|O]; [cbn in X; lia|]); exact O.
        split; [cbn; lia|]. split; [intros [S|S]; discriminate S|]. cbn. intros O. repeat (destruct O as [O|O]; [discriminate O|]). exact O.
      * constructor; [|constructor]. split; [cbn; lia|]. split; [intros [S|S]; discriminate S|]. cbn. intros O. repeat (destruct O as [O|O]; [discriminate O|]). exact O.
    + apply br_open. now apply bracketed_in.
  - split; [apply ipv4_text_ne|]. pose proof (ipv4_text_chars n) as C. split.
    + eapply Forall_impl; [|exact C]. intros c X. apply number_char_ok in X. now apply printable_name.
    + apply bracketed_out. eapply Forall_impl; [|exact C]. intros c X. now apply number_char_ok.
  - split; [exact Nd|]. apply mapped_iff in M. apply IA in M. split; [|now apply bracketed_out].
    rewrite Forall_forall in *. intros c I. apply printable_name; auto.
Qed.
Lemma url_host_some (idna : str -> option str) (s t : str) : url_host idna s = Some t <-> exists h, host_reads idna s h /\ t = host_show h.
Proof.
  unfold url_host. destruct (host_parse idna s) as [h|] eqn:E; cbn [option_map].
  - apply host_iff in E. split.
    + intro H. injection H as <-. exists h. auto.
    + intros (h' & H & ->). now rewrite (host_reads_fun idna s h h' E H).
  - split; [discriminate|]. intros (h & H & _). apply host_iff in H. congruence.
Qed.
Lemma url_host_laws (idna : str -> option str) : idna_laws idna -> host_laws (url_host idna).
Proof.
  intro I. split; intros s t H; apply url_host_some in H; destruct H as (h & H & ->).
  - destruct (host_shown_laws idna s h I H) as (H1 & H2 & _). now split.
  - now destruct (host_shown_laws idna s h I H) as (_ & _ & H3).
  - apply url_host_some. exists h. split; [now apply shown_reads with (s := s)|reflexivity].
Qed.
Lemma in_join_piece (c x : ascii) (l : str) (ls : list str) : In l ls -> In x l -> In x (join [c] ls).
Proof.
  induction ls as [|y ls IH]; intros I X; [destruct I|]. destruct ls as [|z ls].
  - destruct I as [->|[]]. exact X.
  - rewrite join_cons. destruct I as [->|I]; apply in_or_app; [now left|right]. apply in_or_app. right. now apply IH.
Qed.
Lemma ascii_idna_laws : idna_laws ascii_idna.
Proof.
  assert (Low : forall c : ascii, is_ascii_byte c = true -> is_ascii_byte (to_lower c) = true /\ to_lower (to_lower c) = to_lower c).
  { intros c. assert (X : forallb (fun c => negb (is_ascii_byte c) || (is_ascii_byte (to_lower c) && Ascii.eqb (to_lower (to_lower c)) (to_lower c))) (map ascii_of_N (map N.of_nat (seq 0 256))) = true) by (vm_compute; reflexivity).
    rewrite forallb_forall in X. specialize (X c). intro A.
    assert (Y : negb (is_ascii_byte c) || (is_ascii_byte (to_lower c) && Ascii.eqb (to_lower (to_lower c)) (to_lower c)) = true).
    { apply X. apply in_map_iff. exists (N_of_ascii c). split; [apply ascii_N_embedding|]. apply in_map_iff. exists (N.to_nat (N_of_ascii c)). split; [lia|]. apply in_seq. pose proof (N_ascii_bounded c). lia. }
    rewrite A in Y. cbn [negb orb] in Y. apply andb_true_iff in Y. destruct Y as [Y1 Y2]. split; [exact Y1|now apply Ascii.eqb_eq]. }
  assert (Dot : forall c : ascii, Ascii.eqb (to_lower c) "." = Ascii.eqb c ".").
  { intros c. assert (X : forallb (fun c => Bool.eqb (Ascii.eqb (to_lower c) ".") (Ascii.eqb c ".")) (map ascii_of_N (map N.of_nat (seq 0 256))) = true) by (vm_compute; reflexivity).
    rewrite forallb_forall in X. apply Bool.eqb_prop, X. apply in_map_iff. exists (N_of_ascii c). split; [apply ascii_N_embedding|]. apply in_map_iff. exists (N.to_nat (N_of_ascii c)). split; [lia|]. apply in_seq. pose proof (N_ascii_bounded c). lia. }
  assert (Sp : forall s, split "." (map to_lower s) = map (map to_lower) (split "." s)).
  { induction s as [|c s IH]; [reflexivity|]. cbn [map split]. rewrite Dot, IH. destruct (Ascii.eqb c "."); [reflexivity|].
    destruct (split "." s); reflexivity. }
  assert (LL : forall s, forallb is_ascii_byte s = true -> forallb is_ascii_byte (map to_lower s) = true /\ map to_lower (map to_lower s) = map to_lower s).
  { induction s as [|c s IH]; intro F; [split; reflexivity|]. cbn [forallb map] in *. apply andb_true_iff in F. destruct F as [Fc F].
    destruct (Low c Fc) as [L1 L2]. destruct (IH F) as [I1 I2]. rewrite L1, L2, I1, I2. split; reflexivity. }
  assert (K : forall s t, ascii_idna s = Some t -> forallb is_ascii_byte s = true /\ t = map to_lower s /\ existsb (fun l => starts_with $"xn--" (map to_lower l)) (split "." s) = false).
  { intros s t. unfold ascii_idna. destruct (forallb is_ascii_byte s); [|discriminate]. destruct (existsb _ _); [discriminate|]. intro H. injection H as <-. auto. }
  split.
  - intros s t H. destruct (K s t H) as (F & -> & _). destruct (LL s F) as [L1 _]. rewrite forallb_forall in L1. apply Forall_forall. intros c I.
    specialize (L1 c I). unfold is_ascii_byte, code in L1. lia.
  - intros s t H. destruct (K s t H) as (F & -> & X). destruct (LL s F) as [L1 L2]. unfold ascii_idna. rewrite L1, Sp.
    assert (Y : existsb (fun l => starts_with $"xn--" (map to_lower l)) (map (map to_lower) (split "." s)) = false).
    { rewrite <- not_true_iff_false, existsb_exists in X |- *. intros (l & I & E). apply X. apply in_map_iff in I. destruct I as (l0 & <- & I). exists l0. split; [exact I|].
      assert (Fl : forallb is_ascii_byte l0 = true).
      { rewrite forallb_forall in F |- *. intros c Ic. apply F. rewrite <- (join_split "." s). now apply in_join_piece with (l := l0). }
      destruct (LL l0 Fl) as [_ L2']. now rewrite L2' in E. }
    rewrite Y, L2. reflexivity.
  - intros s D. unfold ascii_idna.
    assert (F : forallb is_ascii_byte s = true).
    { apply forallb_forall. intros c I. rewrite Forall_forall in D. destruct (D c I) as [X| ->]; [unfold is_ascii_byte, code; lia|reflexivity]. }
    assert (M : map to_lower s = s).
    { clear F. induction D as [|c s Hc D IH]; [reflexivity|]. cbn [map]. rewrite IH. f_equal. unfold to_lower.
      destruct (is_upper c) eqn:U; [|reflexivity]. exfalso. unfold is_upper, in_range, code in U. destruct Hc as [X| ->]; [lia|discriminate U]. }
    assert (Y : existsb (fun l => starts_with $"xn--" (map to_lower l)) (split "." s) = false).
    { apply not_true_iff_false. intro X. apply existsb_exists in X. destruct X as (l & I & E). apply starts_with_spec in E. destruct E as [r E].
      destruct l as [|c l]; [discriminate|]. cbn [map app s2b list_ascii_of_string] in E. injection E as E _.
      assert (Ic : In c s). { rewrite <- (join_split "." s). apply in_join_piece with (l := c :: l); [exact I|now left]. }
      rewrite Forall_forall in D. destruct (D c Ic) as [X| ->]; [|discriminate E]. apply (f_equal N_of_ascii) in E. unfold to_lower in E.
      assert (U : is_upper c = false) by (unfold is_upper, in_range, code; lia). rewrite U in E. cbn in E. lia. }
    rewrite F, Y, M. reflexivity.
Qed.
