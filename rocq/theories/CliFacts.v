(** Proofs about the command line: the arguments of one level. *)
From Verif Require Import StrFacts HostFacts.
From Verif Require Export SpecCli.

Definition kind (a : str) : arg_kind := if starts_with $"--" a then long_arg a else short_arg a.

Lemma opt_eqb_iff (a b : opt_name) : opt_name_eqb a b = true <-> a = b.
Proof. split; [|intros ->; now destruct b]. destruct a, b; cbn; congruence. Qed.
Lemma opt_eqb_refl (a : opt_name) : opt_name_eqb a a = true.
Proof. now apply opt_eqb_iff. Qed.
Lemma opt_eq_dec (a b : opt_name) : {a = b} + {a <> b}.
Proof. decide equality. Qed.

Lemma names_fun (o : opt_name) (c : ascii) (w : str) : names o c w <-> c = short_of o /\ w = long_of o.
Proof. split; [now intros [] |]. intros [-> ->]. destruct o; constructor. Qed.
Lemma find_short (o : opt_name) : find (fun x => Ascii.eqb (short_of x) (short_of o)) all_options = Some o.
Proof. now destruct o. Qed.
Lemma find_long (o : opt_name) : find (fun x => str_eqb (long_of x) (long_of o)) all_options = Some o.
Proof. now destruct o. Qed.

Lemma drop_all (c : ascii) (h s : str) : Forall (fun x => x = c) h -> drop_while (Ascii.eqb c) (h ++ s) = drop_while (Ascii.eqb c) s.
Proof. induction 1 as [|x h -> H IH]; [reflexivity|]. cbn. now rewrite Ascii.eqb_refl. Qed.
Lemma drop_none (c : ascii) (s : str) : (forall t, s <> c :: t) -> drop_while (Ascii.eqb c) s = s.
Proof. destruct s as [|x s]; [reflexivity|]. intro H. cbn. destruct (Ascii.eqb_spec c x) as [-> | E]; [|reflexivity]. now destruct (H s). Qed.
Lemma drop_split (c : ascii) (s : str) : exists h, s = h ++ drop_while (Ascii.eqb c) s /\ Forall (fun x => x = c) h /\ forall t, drop_while (Ascii.eqb c) s <> c :: t.
Proof.
  induction s as [|x s (h & E & H & N)]; [exists []; repeat split; [constructor|discriminate]|].
  cbn [drop_while]. destruct (Ascii.eqb_spec c x) as [<- | D].
  - exists (c :: h). split; [cbn; now rewrite <- E|]. split; [now constructor|exact N].
  - exists []. split; [reflexivity|]. split; [constructor|]. congruence.
Qed.

Lemma long_body (o : opt_name) (h s : str) : hyphens h -> drop_while (Ascii.eqb "-") ($"--" ++ h ++ long_of o ++ s) = long_of o ++ s.
Proof.
  intro H. rewrite app_assoc. rewrite drop_all; [|apply Forall_app; split; [repeat constructor|exact H]].
  apply drop_none. destruct o; discriminate.
Qed.
Lemma long_split (o : opt_name) (s : str) : split_once "=" (long_of o ++ $"=" ++ s) = Some (long_of o, s).
Proof. now destruct o. Qed.
Lemma long_split_none (o : opt_name) : split_once "=" (long_of o) = None.
Proof. now destruct o. Qed.

Lemma switch_kind (o : opt_name) (f : str) : switch o f -> kind f = AOption o None.
Proof.
  intros [c w N|c w h N H]; apply names_fun in N; destruct N as [-> ->].
  - now destruct o.
  - unfold kind. change (starts_with $"--" ($"--" ++ h ++ long_of o)) with true. cbv iota. unfold long_arg.
    rewrite <- (app_nil_r (long_of o)), (long_body o h [] H), app_nil_r, long_split_none. cbv beta iota zeta. now rewrite find_long.
Qed.
Lemma starts_double (x y : ascii) (s : str) : starts_with $"--" (x :: y :: s) = Ascii.eqb "-" x && Ascii.eqb "-" y.
Proof.
  change (starts_with $"--" (x :: y :: s)) with (Ascii.eqb "-" x && (Ascii.eqb "-" y && true)). now rewrite andb_true_r.
Qed.
Lemma starts_single (x : ascii) (s : str) : starts_with $"-" (x :: s) = Ascii.eqb "-" x.
Proof. change (starts_with $"-" (x :: s)) with (Ascii.eqb "-" x && true). apply andb_true_r. Qed.
Lemma not_double (c : ascii) (s : str) : c <> "-"%char -> starts_with $"--" ("-"%char :: c :: s) = false.
Proof. intro D. rewrite starts_double. destruct (Ascii.eqb_spec "-" c) as [<- | E]; [now destruct D|reflexivity]. Qed.
Lemma short_not_hyphen (o : opt_name) : short_of o <> "-"%char.
Proof. now destruct o. Qed.
Lemma short_kind (o : opt_name) (x : str) : x <> [] -> kind ("-"%char :: short_of o :: x) = AOption o (Some x).
Proof.
  intro X. unfold kind. rewrite (not_double _ _ (short_not_hyphen o)). cbn [short_arg]. rewrite find_short. now destruct x.
Qed.
Lemma long_kind (o : opt_name) (h x : str) : hyphens h -> kind ($"--" ++ h ++ long_of o ++ $"=" ++ x) = AOption o (Some x).
Proof.
  intro H. unfold kind. change (starts_with $"--" ($"--" ++ h ++ long_of o ++ $"=" ++ x)) with true. cbv iota.
  unfold long_arg. rewrite (long_body o h _ H), long_split. cbv beta iota zeta. now rewrite find_long.
Qed.
Lemma strip_equals (e v : str) : equals_signs e -> no_equals v -> drop_while (Ascii.eqb "=") (e ++ v) = v.
Proof. intros E V. rewrite (drop_all "=" e v E). now apply drop_none. Qed.

(** Every argument that is read as an option is one. *)
Lemma find_short_inv (c : ascii) (o : opt_name) : find (fun x => Ascii.eqb (short_of x) c) all_options = Some o -> c = short_of o.
Proof. intro F. apply find_some in F. destruct F as [_ F]. apply Ascii.eqb_eq in F. congruence. Qed.
Lemma find_long_inv (w : str) (o : opt_name) : find (fun x => str_eqb (long_of x) w) all_options = Some o -> w = long_of o.
Proof. intro F. apply find_some in F. destruct F as [_ F]. apply str_eqb_eq in F. congruence. Qed.
Lemma double_hyphens (a : str) : starts_with $"--" a = true ->
  exists h, a = $"--" ++ h ++ drop_while (Ascii.eqb "-") a /\ hyphens h.
Proof.
  destruct a as [|x [|y a]]; [discriminate| |].
  - change (starts_with $"--" [x]) with (Ascii.eqb "-" x && false). now rewrite andb_false_r.
  - rewrite starts_double. destruct (Ascii.eqb_spec "-" x) as [<- | ]; [|discriminate]; destruct (Ascii.eqb_spec "-" y) as [<- | ]; [|discriminate]. intros _.
    destruct (drop_split "-" a) as (h & E & H & _). cbn. exists h. split; [now rewrite <- E|exact H].
Qed.
Lemma kind_bare (a : str) (o : opt_name) : looks_new a = true -> kind a = AOption o None -> switch o a.
Proof.
  intros L K. unfold kind in K. destruct (starts_with $"--" a) eqn:D.
  - destruct (double_hyphens a D) as (h & E & H). unfold long_arg in K. set (b := drop_while (Ascii.eqb "-") a) in *.
    destruct (split_once "=" b) as [[n v]|] eqn:S; cbv beta iota zeta in K.
    + destruct (find _ all_options); [discriminate|]. now destruct (_ || _).
    + destruct (find _ all_options) as [o'|] eqn:F; [|now destruct (_ || _)]. injection K as <-. apply find_long_inv in F. rewrite E, F.
      apply (switch_long _ (short_of o')); [now apply names_fun|exact H].
  - destruct a as [|x [|c v]]; [discriminate|discriminate|]. unfold looks_new in L. rewrite starts_single in L. destruct (Ascii.eqb_spec "-" x) as [<- | ]; [|discriminate].
    cbn [short_arg] in K. destruct (find _ all_options) as [o'|] eqn:F; [|now destruct (_ || _)]. destruct v; [|discriminate]. injection K as <-.
    apply find_short_inv in F. subst c. apply (switch_short _ _ (long_of o')). now apply names_fun.
Qed.
Lemma split_once_eq (c : ascii) (s a b : str) : split_once c s = Some (a, b) -> s = a ++ [c] ++ b.
Proof.
  revert a b. induction s as [|x s IH]; intros a b; cbn; [discriminate|]. destruct (Ascii.eqb_spec x c) as [-> | D].
  - intro E. injection E as <- <-. reflexivity.
  - destruct (split_once c s) as [[p q]|]; [|discriminate]. intro E. injection E as <- <-. cbn. now rewrite (IH p q).
Qed.
Lemma kind_attached (a x : str) (o : opt_name) : looks_new a = true -> kind a = AOption o (Some x) ->
  spelled_out (Setting o (Some (drop_while (Ascii.eqb "=") x)) [a]).
Proof.
  intros L K. destruct (drop_split "=" x) as (e & E & He & Hv). set (v := drop_while (Ascii.eqb "=") x) in *.
  unfold kind in K. destruct (starts_with $"--" a) eqn:D.
  - destruct (double_hyphens a D) as (h & E' & H). unfold long_arg in K. set (b := drop_while (Ascii.eqb "-") a) in *.
    destruct (split_once "=" b) as [[n y]|] eqn:S; cbv beta iota zeta in K; destruct (find _ all_options) as [o'|] eqn:F;
      try discriminate; try now destruct (_ || _).
    injection K as <- <-. apply find_long_inv in F. apply split_once_eq in S. rewrite E', S, F, E.
    apply (spelled_long _ (short_of o')); auto. now apply names_fun.
  - destruct a as [|z [|c y]]; [discriminate|discriminate|]. unfold looks_new in L. rewrite starts_single in L. destruct (Ascii.eqb_spec "-" z) as [<- | ]; [|discriminate].
    cbn [short_arg] in K. destruct (find _ all_options) as [o'|] eqn:F; [|now destruct (_ || _)]. destruct y as [|y0 y]; [discriminate|]. injection K as <- <-.
    apply find_short_inv in F. subst c. rewrite E. apply (spelled_short _ _ (long_of o')); auto; [now apply names_fun|now rewrite <- E].
Qed.

(** ** The shape of arguments *)
Lemma new_not_mode (a : str) : looks_new a = true -> mode_of a = None /\ str_eqb a $"help" = false.
Proof.
  unfold looks_new. destruct a as [|c a]; [discriminate|]. rewrite starts_single. destruct (Ascii.eqb_spec "-" c) as [<- | ]; [|discriminate]. intros _. now split.
Qed.
Lemma separate_iff (v : str) : separate v <-> looks_new v = false.
Proof.
  unfold separate, looks_new. destruct v as [|c v]; [split; [reflexivity|right; discriminate]|]. rewrite starts_single.
  destruct (Ascii.eqb_spec "-" c) as [<- | D].
  - destruct v as [|d v]; cbn; [split; [reflexivity|now left]|]. split; [|discriminate]. intros [E|N]; [discriminate E|now destruct (N (d :: v))].
  - split; [reflexivity|]. intros _. right. congruence.
Qed.
Lemma switch_new (o : opt_name) (f : str) : switch o f -> looks_new f = true /\ str_eqb f $"--" = false.
Proof.
  intros [c w N|c w h N H]; apply names_fun in N; destruct N as [-> ->].
  - now destruct o.
  - split; [now destruct h; destruct o|]. apply str_eqb_neq. intro E. injection E as E. apply app_eq_nil in E. now destruct o.
Qed.
