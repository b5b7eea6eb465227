(** A parser of plain host names, for examples. *)
From Verif Require Export TargetFacts.

Definition toy_name_char (c : ascii) : bool := is_alpha c || is_digit c || Ascii.eqb c "-" || Ascii.eqb c ".".
Definition toy_host : host_parser := fun h =>
  match h with [] => None | _ => if forallb toy_name_char h then Some (map to_lower h) else None end.
Definition toy_schemes : scheme_parser := fun _ _ => Err UrlOther.

Lemma toy_name_ok (c : ascii) : toy_name_char c = true ->
  let d := to_lower c in toy_name_char d = true /\ to_lower d = d /\ (33 <= N_of_ascii d <= 126)%N /\ ~ slash d /\ ~ one_of "?#@" d
  /\ d <> "["%char /\ d <> "]"%char /\ d <> ":"%char.
Proof.
  intro H. cbv zeta.
  assert (X : forallb (fun c => implb (toy_name_char c) (toy_name_char (to_lower c) && Ascii.eqb (to_lower (to_lower c)) (to_lower c)
    && in_range 33 126 (to_lower c) && negb (url_slash (to_lower c)) && negb (existsb (Ascii.eqb (to_lower c)) (list_ascii_of_string "?#@"))
    && negb (Ascii.eqb (to_lower c) "[") && negb (Ascii.eqb (to_lower c) "]") && negb (Ascii.eqb (to_lower c) ":"))) all_bytes = true) by (vm_compute; reflexivity).
  pose proof (byte_all _ X c) as E. cbv beta in E. rewrite H in E. cbn [implb] in E. rewrite !andb_true_iff, !negb_true_iff in E.
  destruct E as (((((((E1 & E2) & E3) & E4) & E5) & E6) & E7) & E8). apply Ascii.eqb_eq in E2. apply Ascii.eqb_neq in E6, E7, E8.
  split; [exact E1|]. split; [exact E2|]. split; [unfold in_range, code in E3; lia|]. split; [now apply slash_false|]. split; [|auto].
  intro O. apply not_true_iff_false in E5. apply E5, existsb_exists. exists (to_lower c). split; [exact O|apply Ascii.eqb_refl].
Qed.
Lemma toy_host_laws : host_laws toy_host.
Proof.
  assert (K : forall h h', toy_host h = Some h' -> h <> [] /\ h' = map to_lower h /\ forallb toy_name_char h = true).
  { intros h h'. unfold toy_host. destruct h; [discriminate|]. destruct (forallb _ _) eqn:E; [|discriminate]. intro H. injection H as <-. split; [discriminate|auto]. }
  split; intros h h' H; apply K in H; destruct H as (N & -> & F).
  - split; [now destruct h|]. rewrite forallb_forall in F. apply Forall_forall. intros c I. apply in_map_iff in I. destruct I as (x & <- & I).
    destruct (toy_name_ok x (F x I)) as (_ & _ & A & B & C & _). auto.
  - clear N. induction h as [|c h IH]; cbn [map]; [constructor|]. cbn [forallb] in F. apply andb_true_iff in F. destruct F as [F1 F2].
    destruct (toy_name_ok c F1) as (_ & _ & _ & _ & _ & A & B & C). apply br_other; auto.
  - unfold toy_host. destruct h as [|c h]; [contradiction|]. set (l := c :: h) in *. assert (G : forallb toy_name_char (map to_lower l) = true).
    { rewrite forallb_forall in *. intros x I. apply in_map_iff in I. destruct I as (y & <- & I). now apply toy_name_ok, F. }
    rewrite G. cbn [map l]. f_equal. change (map to_lower (map to_lower l) = map to_lower l). rewrite map_map. apply map_ext_in. intros x I.
    rewrite forallb_forall in F. now apply toy_name_ok, F.
Qed.
Lemma toy_schemes_laws : scheme_laws toy_schemes.
Proof. intros sch rest _. split; discriminate. Qed.
