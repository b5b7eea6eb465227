(** Lemmas about Base64.v: both decoders invert the encoder, and the strict
    decoder accepts nothing else. *)
From Verif Require Export Base64 Sfv StrFacts.
Local Open Scope N_scope.

Lemma b64_val_sym (v : N) : v < 64 -> b64_val (b64_sym v) = Some v.
Proof.
  intro H.
  assert (E : forallb (fun v => match b64_val (b64_sym v) with Some w => w =? v | None => false end)
                (map N.of_nat (seq 0 64)) = true) by (vm_compute; reflexivity).
  rewrite forallb_forall in E. specialize (E v).
  assert (I : In v (map N.of_nat (seq 0 64))).
  { apply in_map_iff. exists (N.to_nat v). split; [lia|]. apply in_seq. lia. }
  specialize (E I). simpl in E. destruct (b64_val (b64_sym v)) as [w|]; [|discriminate].
  apply N.eqb_eq in E. now subst.
Qed.

Lemma b64_sym_val (c : ascii) (v : N) : b64_val c = Some v -> v < 64 /\ b64_sym v = c.
Proof.
  assert (E : forallb (fun c => match b64_val c with
                                | Some v => (v <? 64) && Ascii.eqb (b64_sym v) c
                                | None => true end) all_bytes = true) by (vm_compute; reflexivity).
  pose proof (byte_all _ E c) as H. cbv beta in H. intro F. rewrite F in H.
  apply andb_true_iff in H. destruct H as [H1 H2]. apply Ascii.eqb_eq in H2. lia || (split; [lia|exact H2]).
Qed.

Lemma b64_sym_nopad (v : N) : v < 64 -> Ascii.eqb (b64_sym v) b64_pad = false.
Proof.
  intro H. destruct (Ascii.eqb_spec (b64_sym v) b64_pad) as [E|E]; [|reflexivity].
  pose proof (b64_val_sym v H) as F. rewrite E in F. discriminate.
Qed.

Lemma b64_sym_char (v : N) : v < 64 -> is_b64_char (b64_sym v) = true /\ Ascii.eqb (b64_sym v) ":" = false.
Proof.
  intro H.
  assert (E : forallb (fun v => is_b64_char (b64_sym v) && negb (Ascii.eqb (b64_sym v) ":"))
                (map N.of_nat (seq 0 64)) = true) by (vm_compute; reflexivity).
  rewrite forallb_forall in E. specialize (E v).
  assert (I : In v (map N.of_nat (seq 0 64))).
  { apply in_map_iff. exists (N.to_nat v). split; [lia|]. apply in_seq. lia. }
  specialize (E I). cbv beta in E. apply andb_true_iff in E. destruct E as [E1 E2].
  now apply negb_true_iff in E2.
Qed.

(** Induction three elements at a time, and four at a time. *)
Lemma list_ind3 {A} (P : list A -> Prop) :
  P [] -> (forall a, P [a]) -> (forall a b, P [a; b]) ->
  (forall a b c l, P l -> P (a :: b :: c :: l)) -> forall l, P l.
Proof.
  intros H0 H1 H2 H3. fix IH 1. intros [|a [|b [|c l]]].
  - exact H0. - apply H1. - apply H2. - apply H3, IH.
Qed.
Lemma list_ind4 {A} (P : list A -> Prop) :
  P [] -> (forall a, P [a]) -> (forall a b, P [a; b]) -> (forall a b c, P [a; b; c]) ->
  (forall a b c d l, P l -> P (a :: b :: c :: d :: l)) -> forall l, P l.
Proof.
  intros H0 H1 H2 H3 H4. fix IH 1. intros [|a [|b [|c [|d l]]]].
  - exact H0. - apply H1. - apply H2. - apply H3. - apply H4, IH.
Qed.

Lemma byte_eq (c : ascii) (n : N) : n = code c -> ascii_of_N n = c.
Proof. intros ->. apply of_code. Qed.

Ltac bytes := repeat match goal with c : ascii |- _ =>
  lazymatch goal with H : code c < 256 |- _ => fail | _ => pose proof (code_lt c) end end.

Lemma quad3_bytes (a b c : ascii) :
  quad3 (code a / 4) (code a mod 4 * 16 + code b / 16) (code b mod 16 * 4 + code c / 64) (code c mod 64)
  = [a; b; c].
Proof.
  unfold quad3. bytes.
  rewrite (byte_eq a), (byte_eq b), (byte_eq c); [reflexivity| | |]; lia.
Qed.

Lemma b64_encode_len4 (s : str) : b64_encode s = [] \/ exists a b c d r, b64_encode s = a :: b :: c :: d :: r.
Proof. destruct s as [|a [|b [|c r]]]; simpl; eauto 10. Qed.

Lemma b64_decode_cons (a b c d : ascii) (r : str) : r <> [] ->
  b64_decode (a :: b :: c :: d :: r)
  = match b64_val a, b64_val b, b64_val c, b64_val d with
    | Some w, Some x, Some y, Some z =>
        match b64_decode r with Some t => Some (quad3 w x y z ++ t) | None => None end
    | _, _, _, _ => None
    end.
Proof. intro H. destruct r; [contradiction|reflexivity]. Qed.

Lemma b64_encode_nil (s : str) : b64_encode s = [] -> s = [].
Proof. destruct s as [|a [|b [|c r]]]; simpl; easy. Qed.

Lemma b64_decode_encode (s : str) : b64_decode (b64_encode s) = Some s.
Proof.
  induction s as [| a | a b | a b c l IH] using list_ind3.
  - reflexivity.
  - cbn [b64_encode b64_decode]. unfold b64_quad. bytes.
    rewrite !b64_val_sym by lia. cbn [Ascii.eqb].
    change (Ascii.eqb b64_pad b64_pad) with true. cbn [andb].
    replace (code a mod 4 * 16 mod 16 =? 0) with true by lia. cbn [negb].
    rewrite (byte_eq a); [reflexivity|lia].
  - cbn [b64_encode b64_decode]. unfold b64_quad. bytes.
    rewrite !b64_val_sym by lia. rewrite b64_sym_nopad by lia.
    change (Ascii.eqb b64_pad b64_pad) with true. cbn [andb].
    replace (code b mod 16 * 4 mod 4 =? 0) with true by lia. cbn [negb].
    rewrite (byte_eq a), (byte_eq b); [reflexivity| |]; lia.
  - cbn [b64_encode]. bytes. destruct l as [|x l].
    + cbn [b64_encode b64_decode]. unfold b64_quad.
      rewrite !b64_val_sym by lia. rewrite !b64_sym_nopad by lia.
      now rewrite quad3_bytes.
    + rewrite b64_decode_cons; [|intro E; now apply b64_encode_nil in E].
      rewrite !b64_val_sym by lia. rewrite IH. now rewrite quad3_bytes.
Qed.

Lemma sfv_b64_decode_encode (s : str) : sfv_b64_decode (b64_encode s) = Some s.
Proof.
  induction s as [| a | a b | a b c l IH] using list_ind3.
  - reflexivity.
  - cbn [b64_encode sfv_b64_decode]. unfold b64_quad. bytes.
    rewrite !b64_val_sym by lia.
    change (Ascii.eqb b64_pad b64_pad) with true. cbn [andb app].
    rewrite (byte_eq a); [reflexivity|lia].
  - cbn [b64_encode sfv_b64_decode]. unfold b64_quad. bytes.
    rewrite !b64_val_sym by lia. rewrite b64_sym_nopad by lia.
    change (Ascii.eqb b64_pad b64_pad) with true. cbn [andb app].
    rewrite (byte_eq a), (byte_eq b); [reflexivity| |]; lia.
  - cbn [b64_encode sfv_b64_decode]. bytes. unfold b64_quad.
    rewrite !b64_val_sym by lia. rewrite !b64_sym_nopad by lia.
    rewrite IH. now rewrite quad3_bytes.
Qed.

Lemma b64_encode_chars (s : str) :
  forallb is_b64_char (b64_encode s) = true /\ ~ In ":"%char (b64_encode s).
Proof.
  assert (G : forallb (fun c => is_b64_char c && negb (Ascii.eqb c ":")) (b64_encode s) = true).
  { assert (S : forall v, v < 64 -> is_b64_char (b64_sym v) && negb (Ascii.eqb (b64_sym v) ":") = true).
    { intros v Hv. destruct (b64_sym_char v Hv) as [-> ->]. reflexivity. }
    assert (P : is_b64_char b64_pad && negb (Ascii.eqb b64_pad ":") = true) by reflexivity.
    induction s as [| a | a b | a b c l IH] using list_ind3; cbn [b64_encode forallb]; bytes.
    - reflexivity.
    - rewrite !S, P by lia. reflexivity.
    - rewrite !S, P by lia. reflexivity.
    - rewrite !S, IH by lia. reflexivity. }
  split.
  - eapply forallb_impl; [|exact G]. intros x H. now apply andb_true_iff in H.
  - intro I. pose proof (forallb_In _ _ _ G I) as H. discriminate.
Qed.

(** The strict decoder accepts only what the encoder prints. *)
Lemma b64_quad_strict (a b c d : ascii) (t : str) :
  b64_quad true a b c d = Some t -> b64_encode t = [a; b; c; d].
Proof.
  unfold b64_quad.
  destruct (b64_val a) as [w|] eqn:Ea; [|discriminate].
  destruct (b64_val b) as [x|] eqn:Eb; [|discriminate].
  apply b64_sym_val in Ea, Eb. destruct Ea as [Hw <-], Eb as [Hx <-].
  destruct (Ascii.eqb_spec d b64_pad) as [->|Nd].
  - destruct (Ascii.eqb_spec c b64_pad) as [->|Nc].
    + cbn [andb]. destruct (N.eqb_spec (x mod 16) 0) as [E|E]; [|discriminate].
      cbn [negb]. intro H. injection H as <-. cbn [b64_encode].
      rewrite code_of by lia.
      replace ((w * 4 + x / 16) / 4) with w by lia.
      replace ((w * 4 + x / 16) mod 4 * 16) with x by lia. reflexivity.
    + destruct (b64_val c) as [y|] eqn:Ec; [|discriminate].
      apply b64_sym_val in Ec. destruct Ec as [Hy <-].
      cbn [andb]. destruct (N.eqb_spec (y mod 4) 0) as [E|E]; [|discriminate].
      cbn [negb]. intro H. injection H as <-. cbn [b64_encode].
      rewrite !code_of by lia.
      replace ((w * 4 + x / 16) / 4) with w by lia.
      replace ((w * 4 + x / 16) mod 4 * 16 + (x mod 16 * 16 + y / 4) / 16) with x by lia.
      replace ((x mod 16 * 16 + y / 4) mod 16 * 4) with y by lia. reflexivity.
  - destruct (b64_val c) as [y|] eqn:Ec; [|discriminate].
    destruct (b64_val d) as [z|] eqn:Ed; [|discriminate].
    apply b64_sym_val in Ec, Ed. destruct Ec as [Hy <-], Ed as [Hz <-].
    intro H. injection H as <-. unfold quad3. cbn [b64_encode].
    rewrite !code_of by lia.
    replace ((w * 4 + x / 16) / 4) with w by lia.
    replace ((w * 4 + x / 16) mod 4 * 16 + (x mod 16 * 16 + y / 4) / 16) with x by lia.
    replace ((x mod 16 * 16 + y / 4) mod 16 * 4 + (y mod 4 * 64 + z) / 64) with y by lia.
    replace ((y mod 4 * 64 + z) mod 64) with z by lia. reflexivity.
Qed.

Lemma b64_encode_decode (t s : str) : b64_decode t = Some s -> b64_encode s = t.
Proof.
  revert s. induction t as [| a | a b | a b c | a b c d l IH] using list_ind4; intro s; try discriminate.
  - intro H. injection H as <-. reflexivity.
  - destruct l as [|e l].
    + apply b64_quad_strict.
    + rewrite b64_decode_cons by easy.
      destruct (b64_val a) as [w|] eqn:Ea; [|discriminate].
      destruct (b64_val b) as [x|] eqn:Eb; [|discriminate].
      destruct (b64_val c) as [y|] eqn:Ec; [|discriminate].
      destruct (b64_val d) as [z|] eqn:Ed; [|discriminate].
      destruct (b64_decode (e :: l)) as [u|] eqn:E; [|discriminate].
      intro H. injection H as <-. specialize (IH u eq_refl).
      apply b64_sym_val in Ea, Eb, Ec, Ed.
      destruct Ea as [Hw <-], Eb as [Hx <-], Ec as [Hy <-], Ed as [Hz <-].
      unfold quad3. cbn [app b64_encode]. rewrite IH, !code_of by lia.
      replace ((w * 4 + x / 16) / 4) with w by lia.
      replace ((w * 4 + x / 16) mod 4 * 16 + (x mod 16 * 16 + y / 4) / 16) with x by lia.
      replace ((x mod 16 * 16 + y / 4) mod 16 * 4 + (y mod 4 * 64 + z) / 64) with y by lia.
      replace ((y mod 4 * 64 + z) mod 64) with z by lia. reflexivity.
Qed.

Lemma b64_decode_iff (t s : str) : b64_decode t = Some s <-> t = b64_encode s.
Proof.
  split; intro H; [symmetry; now apply b64_encode_decode|]. subst. apply b64_decode_encode.
Qed.
Lemma b64_encode_inj (a b : str) : b64_encode a = b64_encode b -> a = b.
Proof.
  intro H. assert (Some a = Some b) as E by (rewrite <- !b64_decode_encode; now rewrite H).
  congruence.
Qed.
