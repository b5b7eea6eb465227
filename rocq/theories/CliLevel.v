(** Proofs about the command line: levels, and the whole line. *)
From Verif Require Import StrFacts HostFacts.
From Verif Require Export CliFacts.

Definition entry (x : setting) : opt_name * list str := (s_name x, match s_value x with Some v => [v] | None => [] end).
Definition entries (l : list setting) : matches := rev (map entry l).
Definition after (x : setting) (m : matches) : needs :=
  match s_words x, s_value x with
  | [_], Some _ => NDone
  | [_], None => NOpt OHeaders
  | _, _ => if needs_more (s_name x) (entry x :: m) then NOpt (s_name x) else NDone
  end.

(** ** Reading what is written *)
Lemma step_new (top : bool) (m : matches) (n : needs) (a : str) (rest : list str) (o : opt_name) (val : option str) :
  looks_new a = true -> str_eqb a $"--" = false -> kind a = AOption o val ->
  parse_args top m n (a :: rest) = parse_args top (fst (parse_opt o val m)) (snd (parse_opt o val m)) rest.
Proof.
  intros L D K. cbn [parse_args]. rewrite D. destruct (new_not_mode a L) as [M H]. rewrite H, andb_false_r, L, M. fold (kind a). rewrite K.
  replace (if top && negb match n with NOpt _ => true | _ => false end then @None mode else None) with (@None mode) by now destruct (top && _).
  now destruct (parse_opt o val m).
Qed.

Lemma step_value (top : bool) (m : matches) (o : opt_name) (v : str) (rest : list str) : separate v ->
  parse_args top m (NOpt o) (v :: rest)
  = parse_args top (add_value m v) (if needs_more o (add_value m v) then NOpt o else NDone) rest.
Proof.
  intro S. apply separate_iff in S. cbn [parse_args].
  assert (D : str_eqb v $"--" = false) by (apply str_eqb_neq; intros ->; discriminate S).
  rewrite D. cbn [negb]. rewrite andb_false_r. cbn [andb]. now rewrite S.
Qed.
Lemma attached_new (x : setting) (a v : str) : spelled_out x -> s_words x = [a] -> s_value x = Some v ->
  looks_new a = true /\ str_eqb a $"--" = false /\ exists y, kind a = AOption (s_name x) (Some y) /\ drop_while (Ascii.eqb "=") y = v.
Proof.
  intros [o f w S V|o c w e w' N E V X|o c w h e w' N H E V|f S] W Y; cbn in W, Y; try discriminate; injection W as <-; injection Y as <-; cbn [s_name];
    apply names_fun in N; destruct N as [-> ->].
  - split; [reflexivity|]. split; [apply str_eqb_neq; intro Q; injection Q as Q _; now apply short_not_hyphen in Q|].
    exists (e ++ w'). split; [now apply short_kind|now apply strip_equals].
  - split; [now destruct h; destruct o|]. split.
    + apply str_eqb_neq. intro Q. injection Q as Q. apply app_eq_nil in Q. destruct Q as [_ Q]. now destruct o.
    + exists (e ++ w'). split; [now apply long_kind|now apply strip_equals].
Qed.
Lemma run_setting (top : bool) (x : setting) (m : matches) (n : needs) (rest : list str) : spelled_out x ->
  parse_args top m n (s_words x ++ rest) = parse_args top (entry x :: m) (after x m) rest.
Proof.
  intro S. destruct (s_words x) as [|a ws] eqn:W; [now destruct S|]. pose proof S as S0.
  destruct S as [o f v Sw V|o c w e v N E V X|o c w h e v N H E V|f Sw]; cbn in W; injection W as <- <-.
  - destruct (switch_new o f Sw) as [L D]. cbn [app]. rewrite (step_new top m n f (v :: rest) o None L D (switch_kind o f Sw)).
    cbn [parse_opt fst snd]. rewrite (step_value top _ o v rest V). reflexivity.
  - destruct (attached_new _ _ v S0 eq_refl eq_refl) as (L & D & y & K & Y). cbn [s_name] in K. 
    etransitivity; [exact (step_new top m n _ rest o (Some y) L D K)|]. cbn [parse_opt fst snd]. now rewrite Y.
  - destruct (attached_new _ _ v S0 eq_refl eq_refl) as (L & D & y & K & Y). cbn [s_name] in K. 
    etransitivity; [exact (step_new top m n _ rest o (Some y) L D K)|]. cbn [parse_opt fst snd]. now rewrite Y.
  - destruct (switch_new _ f Sw) as [L D]. cbn [app]. now rewrite (step_new top m n f rest OHeaders None L D (switch_kind _ f Sw)).
Qed.
Lemma run_level (top : bool) (l : list setting) : Forall spelled_out l -> forall m n, exists n',
  (forall rest, parse_args top m n (words l ++ rest) = parse_args top (entries l ++ m) n' rest)
  /\ (l = [] /\ n' = n \/ exists before x m', l = before ++ [x] /\ n' = after x m').
Proof.
  induction 1 as [|x l S F IH]; intros m n.
  - exists n. split; [reflexivity|now left].
  - destruct (IH (entry x :: m) (after x m)) as (n' & R & E). exists n'. split.
    + intro rest. change (words (x :: l)) with (s_words x ++ words l). rewrite <- app_assoc, (run_setting top x m n _ S), R.
      unfold entries. cbn [map rev]. now rewrite <- app_assoc.
    + right. destruct E as [[-> ->] | (b & y & m' & -> & ->)]; [now exists [], x, m|now exists (x :: b), y, m'].
Qed.
Lemma closed_state (before : list setting) (x : setting) (m : matches) : spelled_out x -> closed (before ++ [x]) -> after x m = NDone.
Proof.
  intros S C. specialize (C before x eq_refl). unfold after.
  destruct S as [o f v Sw V|o c w e v N E V X|o c w h e v N H E V|f Sw]; cbn in *; try reflexivity.
  - destruct (opt_eq_dec o OHeaders) as [-> | D]; [now destruct (C eq_refl)|]. now destruct o.
  - now destruct (C eq_refl).
Qed.

(** ** The occurrences of an option *)
Definition hits (o : opt_name) (m : matches) : matches := filter (fun e => opt_name_eqb (fst e) o) m.
Lemma hits_app (o : opt_name) (a b : matches) : hits o (a ++ b) = hits o a ++ hits o b.
Proof. apply filter_app. Qed.
Lemma hits_none (o : opt_name) (m : matches) : ~ In o (map fst m) -> hits o m = [].
Proof.
  induction m as [|e m IH]; intro N; [reflexivity|]. cbn. destruct (opt_name_eqb (fst e) o) eqn:E.
  - apply opt_eqb_iff in E. destruct N. now left.
  - apply IH. intro I. apply N. now right.
Qed.
Lemma hits_one (m : matches) (e : opt_name * list str) : NoDup (map fst m) -> In e m -> hits (fst e) m = [e].
Proof.
  intros N I. apply in_split in I. destruct I as (a & b & ->). rewrite map_app in N. cbn [map] in N. apply NoDup_remove_2 in N.
  rewrite hits_app, (hits_none _ a); [|intro I; apply N, in_or_app; now left].
  cbn. rewrite opt_eqb_refl. fold (hits (fst e) b). rewrite (hits_none _ b); [reflexivity|intro I; apply N, in_or_app; now right].
Qed.
Lemma hits_nodup (m : matches) : (forall o, (List.length (hits o m) <= 1)%nat) -> NoDup (map fst m).
Proof.
  induction m as [|e m IH]; intro H; [constructor|]. cbn [map]. constructor.
  - intro I. apply in_map_iff in I. destruct I as (y & E & I). specialize (H (fst e)). cbn in H. rewrite opt_eqb_refl in H. fold (hits (fst e) m) in H.
    cbn [List.length] in H. assert (J : In y (hits (fst e) m)) by (apply filter_In; split; [exact I|now apply opt_eqb_iff]).
    destruct (hits (fst e) m); [destruct J|cbn in H; lia].
  - apply IH. intro o. specialize (H o). cbn in H. fold (hits o m) in H. destruct (opt_name_eqb (fst e) o); cbn in H; lia.
Qed.
Lemma occ_hits (o : opt_name) (m : matches) : occurrences o m = List.length (hits o m).
Proof. reflexivity. Qed.
Lemma val_hits (o : opt_name) (m : matches) : values_of o m = List.concat (map snd (hits o m)).
Proof. reflexivity. Qed.
Lemma every_option (o : opt_name) : In o all_options.
Proof. destruct o; cbn; tauto. Qed.
Lemma validate_iff (m : matches) : validate m = true <->
  NoDup (map fst m) /\ forall e, In e m -> values_ok (fst e) (snd e) = true.
Proof.
  unfold validate. rewrite forallb_forall. split.
  - intro V. assert (D : NoDup (map fst m)).
    { apply hits_nodup. intro o. specialize (V o (every_option o)). unfold option_ok in V. rewrite occ_hits in V.
      destruct (List.length (hits o m)) as [|k]; [lia|]. apply andb_true_iff in V. lia. }
    split; [exact D|]. intros e I. specialize (V (fst e) (every_option _)). unfold option_ok in V. rewrite occ_hits, val_hits, (hits_one m e D I) in V.
    cbn in V. now rewrite app_nil_r in V.
  - intros [D V] o _. unfold option_ok. rewrite occ_hits, val_hits. destruct (in_dec opt_eq_dec o (map fst m)) as [I|I].
    + apply in_map_iff in I. destruct I as (e & <- & I). rewrite (hits_one m e D I). cbn. rewrite app_nil_r. now apply V.
    + now rewrite (hits_none o m I).
Qed.

Lemma entries_names (l : list setting) : map fst (entries l) = rev (map s_name l).
Proof. unfold entries. rewrite map_rev, map_map. reflexivity. Qed.
Lemma entries_nodup (l : list setting) : NoDup (map s_name l) <-> NoDup (map fst (entries l)).
Proof.
  rewrite entries_names. split; intro N; [now apply NoDup_rev|]. rewrite <- (rev_involutive (map s_name l)). now apply NoDup_rev.
Qed.
Lemma entries_in (e : opt_name * list str) (l : list setting) : In e (entries l) <-> exists x, In x l /\ entry x = e.
Proof. unfold entries. rewrite <- in_rev, in_map_iff. firstorder. Qed.
Lemma names_in_entries (o : opt_name) (l : list setting) : In o (map fst (entries l)) <-> In o (map s_name l).
Proof. rewrite entries_names. symmetry. apply in_rev. Qed.

(** ** Integers *)
Lemma digits_ten (s : str) : forallb (digit_in 10) s = forallb is_digit s.
Proof. apply forallb_ten. Qed.
Lemma integer_iff (s : str) (z : Z) : integer s z <-> i64_from_str s = Some z.
Proof.
  assert (P : forall ds neg, ds <> [] ->
    (match ds with [] => None | _ => if forallb is_digit ds then
       let n := Z.of_N (radix_value 10 ds) in let z := if neg : bool then (- n)%Z else n in
       if (- 2 ^ 63 <=? z)%Z && (z <? 2 ^ 63)%Z then Some z else None else None end = Some z
     <-> exists n, numeral 10 ds n /\ z = (if neg then - Z.of_N n else Z.of_N n)%Z /\ (- 2 ^ 63 <= z < 2 ^ 63)%Z)).
  { intros ds neg Hd. destruct ds as [|d ds]; [congruence|]. set (l := d :: ds). clearbody l. clear Hd. split.
    - destruct (forallb is_digit l) eqn:F; [|discriminate]. cbv zeta. destruct (_ && _) eqn:B; [|discriminate]. intro E. injection E as E.
      exists (radix_value 10 l). rewrite numeral_iff, digits_ten. split; [now split|]. subst z. split; [reflexivity|].
      apply andb_true_iff in B. destruct B as [B1 B2]. apply Z.leb_le in B1. apply Z.ltb_lt in B2. now split.
    - intros (n & N & E & B1 & B2). apply numeral_iff in N. rewrite digits_ten in N. destruct N as [-> ->]. cbv zeta. rewrite <- E.
      apply Z.leb_le in B1. apply Z.ltb_lt in B2. now rewrite B1, B2. }
  unfold i64_from_str. split.
  - intros (sg & ds & n & -> & Hd & N & [[-> E] | [[-> | ->] E]] & B); cbv beta iota zeta.
    + apply (P ds true Hd). now exists n.
    + apply (P ds false Hd). now exists n.
    + cbn [app]. destruct ds as [|d ds]; [congruence|]. pose proof N as N0. apply numeral_iff in N0. rewrite digits_ten in N0. destruct N0 as [F _]. cbn [forallb] in F.
      assert (D1 : Ascii.eqb d "-" = false) by (destruct (Ascii.eqb_spec d "-") as [-> | ]; [discriminate F|reflexivity]).
      assert (D2 : Ascii.eqb d "+" = false) by (destruct (Ascii.eqb_spec d "+") as [-> | ]; [discriminate F|reflexivity]).
      rewrite D1, D2. apply (P (d :: ds) false Hd). now exists n.
  - destruct s as [|c t]; [discriminate|]. destruct (Ascii.eqb_spec c "-") as [-> | D1]; [|destruct (Ascii.eqb_spec c "+") as [-> | D2]].
    + intro E. assert (Ht : t <> []) by (intros ->; discriminate E). apply (P t true Ht) in E. destruct E as (n & N & E & B).
      exists $"-", t, n. repeat split; auto; try apply B. 
    + intro E. assert (Ht : t <> []) by (intros ->; discriminate E). apply (P t false Ht) in E. destruct E as (n & N & E & B).
      exists $"+", t, n. repeat split; auto; try apply B.
    + intro E. assert (Ht : c :: t <> []) by discriminate. apply (P (c :: t) false Ht) in E. destruct E as (n & N & E & B).
      exists [], (c :: t), n. repeat split; auto; try apply B.
Qed.
