(** Lemmas about Verifying.v. *)
From Verif Require Export SpecVerify ReadFacts AlgFacts WhiteFacts.

(** ** Small correspondences *)
Lemma commas_join (l : list str) : commas l = join [","%char] l.
Proof. induction l as [|x [|y l] IH]; try reflexivity. cbn [commas]. rewrite join_cons, <- IH. reflexivity. Qed.

Lemma drop_repeat (c : ascii) (s : str) :
  exists m, s = repeat c m ++ drop_while (Ascii.eqb c) s /\ (forall x, drop_while (Ascii.eqb c) s <> c :: x).
Proof.
  induction s as [|y s IH]; cbn [drop_while].
  - exists 0%nat. split; [reflexivity|discriminate].
  - destruct (Ascii.eqb_spec c y) as [<-|N].
    + destruct IH as (m & E & F). exists (Datatypes.S m). split; [|exact F]. cbn [repeat app]. now rewrite <- E.
    + exists 0%nat. split; [reflexivity|]. intros x E. congruence.
Qed.
Lemma repeat_snoc {A} (c : A) (n : nat) : repeat c n ++ [c] = c :: repeat c n.
Proof. induction n as [|n IH]; [reflexivity|]. cbn [repeat app]. now rewrite IH. Qed.
Lemma rev_repeat {A} (c : A) (n : nat) : rev (repeat c n) = repeat c n.
Proof. induction n as [|n IH]; [reflexivity|]. cbn [repeat rev]. now rewrite IH, repeat_snoc. Qed.
Lemma drop_while_repeat (c : ascii) (m : nat) (t : str) :
  (forall x, t <> c :: x) -> drop_while (Ascii.eqb c) (repeat c m ++ t) = t.
Proof.
  intro H. induction m as [|m IH]; cbn [repeat app drop_while].
  - destruct t as [|y t]; [reflexivity|]. cbn [drop_while]. destruct (Ascii.eqb_spec c y) as [<-|N]; [|reflexivity].
    exfalso. exact (H t eq_refl).
  - now rewrite Ascii.eqb_refl.
Qed.
Lemma trim_matches_iff (c : ascii) (s t : str) :
  trim_matches c s = t <->
  (exists m n, s = repeat c m ++ t ++ repeat c n) /\ (forall x, t <> c :: x) /\ (forall x, t <> x ++ [c]).
Proof.
  unfold trim_matches. split.
  - intros <-. destruct (drop_repeat c s) as (m & E & F).
    remember (drop_while (Ascii.eqb c) s) as d eqn:Ed. clear Ed.
    destruct (drop_repeat c (rev d)) as (n & E' & F').
    remember (drop_while (Ascii.eqb c) (rev d)) as e eqn:Ee. clear Ee.
    assert (Ed : d = rev e ++ repeat c n).
    { rewrite <- (rev_involutive d), E', rev_app_distr, rev_repeat. reflexivity. }
    split; [|split].
    + exists m, n. now rewrite <- Ed.
    + intros x G. apply (F (x ++ repeat c n)). rewrite Ed, G. reflexivity.
    + intros x G. apply (F' (rev x)). apply (f_equal (@rev ascii)) in G.
      rewrite rev_involutive, rev_app_distr in G. exact G.
  - intros ((m & n & ->) & H1 & H2).
    destruct t as [|y t].
    + cbn [app]. rewrite <- repeat_app. rewrite <- (app_nil_r (repeat c (m + n))).
      rewrite drop_while_repeat by discriminate. reflexivity.
    + rewrite drop_while_repeat.
      * rewrite rev_app_distr, rev_repeat, drop_while_repeat; [apply rev_involutive|].
        intros x G. apply (H2 (rev x)). apply (f_equal (@rev ascii)) in G. rewrite rev_involutive in G. exact G.
      * intros x G. apply (H1 t). cbn [app] in G. congruence.
Qed.

Lemma signature_member_iff (s label sig : str) :
  parse_signature_header s = Some (label, sig) <-> signature_member s label sig.
Proof.
  unfold parse_signature_header, signature_member. split.
  - destruct (split_once "=" s) as [[l v]|] eqn:E; [|discriminate]. intro H. injection H as <- <-.
    apply split_once_spec in E. destruct E as [-> N]. split; [exact N|].
    destruct (proj1 (trim_matches_iff ":" v _) eq_refl) as ((m & n & E) & F & G).
    split; [|split; assumption]. exists m, n. cbn [app]. now rewrite <- E.
  - intros (N & (m & n & ->) & F & G).
    assert (E : split_once "=" (label ++ ["="%char] ++ repeat ":"%char m ++ sig ++ repeat ":"%char n)
                = Some (label, repeat ":"%char m ++ sig ++ repeat ":"%char n)).
    { apply split_once_spec. split; [reflexivity|exact N]. }
    rewrite E. f_equal. f_equal. apply trim_matches_iff. split; [eauto|split; assumption].
Qed.

(** ** Digest headers *)
Lemma digest_entry_dec (dp : digest_provider) (p : str) :
  match split_once "=" p with
  | None => ~ exists a v, digest_entry dp p a v
  | Some (k, v) => match dp (trim k) with
                   | Some d => forall a w, digest_entry dp p a w <-> a = d /\ w = trim v
                   | None => ~ exists a v, digest_entry dp p a v
                   end
  end.
Proof.
  destruct (split_once "=" p) as [[k v]|] eqn:E.
  - pose proof E as E0. apply split_once_spec in E. destruct E as [-> N].
    assert (U : forall k' v', k ++ "="%char :: v = k' ++ ["="%char] ++ v' -> ~ In "="%char k' -> k' = k /\ v' = v).
    { intros k' v' G N'. assert (E1 : split_once "=" (k ++ "="%char :: v) = Some (k', v')) by (apply split_once_spec; split; assumption).
      rewrite E0 in E1. injection E1 as <- <-. split; reflexivity. }
    destruct (dp (trim k)) as [d|] eqn:D.
    + intros a w. split.
      * intros (k' & v' & n & G & N' & Tk & D' & Tv). destruct (U k' v' G N') as [-> ->]. apply trimmed_iff in Tk, Tv. split; congruence.
      * intros [-> ->]. exists k, v, (trim k). split; [reflexivity|]. split; [exact N|]. split; [apply trimmed_trim|]. split; [exact D|apply trimmed_trim].
    + intros (a & w & k' & v' & n & G & N' & Tk & D' & Tv). destruct (U k' v' G N') as [-> ->]. apply trimmed_iff in Tk. congruence.
  - intros (a & v & k & w & n & -> & N & _). apply split_once_none in E. apply E. apply in_or_app. right. now left.
Qed.
Lemma first_digest_iff (dp : digest_provider) (parts : list str) (alg : http_digest) (v : str) :
  first_digest dp parts = Some (alg, v) <->
  exists before entry after, parts = before ++ entry :: after
    /\ Forall (fun p => ~ exists a v, digest_entry dp p a v) before /\ digest_entry dp entry alg v.
Proof.
  induction parts as [|p parts IH]; cbn [first_digest].
  - split; [discriminate|]. intros (b & e & a & H & _). destruct b; discriminate.
  - pose proof (digest_entry_dec dp p) as D.
    assert (Skip : (~ exists a v, digest_entry dp p a v) ->
      (first_digest dp parts = Some (alg, v) <->
       exists before entry after, p :: parts = before ++ entry :: after
       /\ Forall (fun p => ~ exists a v, digest_entry dp p a v) before /\ digest_entry dp entry alg v)).
    { intro N. rewrite IH. split.
      - intros (b & e & a & -> & F & G). exists (p :: b), e, a. split; [reflexivity|]. split; [|exact G]. now constructor.
      - intros (b & e & a & E & F & G). destruct b as [|p' b].
        + injection E as <- <-. exfalso. apply N. eauto.
        + injection E as <- ->. exists b, e, a. inversion F; subst. repeat split; assumption. }
    destruct (split_once "=" p) as [[k w]|]; [|now apply Skip].
    destruct (dp (trim k)) as [d|]; [|now apply Skip].
    split.
    + intro H. injection H as <- <-. exists [], p, parts. split; [reflexivity|]. split; [constructor|]. apply D. split; reflexivity.
    + intros (b & e & a & E & F & G). destruct b as [|p' b].
      * injection E as <- <-. apply D in G. destruct G as [-> ->]. reflexivity.
      * injection E as <- ->. inversion F as [|? ? N]; subst. exfalso. apply N. exists d, (trim w). apply D. split; reflexivity.
Qed.
Lemma first_entry_iff (dp : digest_provider) (h : str) (alg : http_digest) (v : str) :
  first_digest dp (split "," h) = Some (alg, v) <-> first_entry dp h alg v.
Proof.
  rewrite first_digest_iff. unfold first_entry. split.
  - intros (b & e & a & E & F & G). exists b, e, a. rewrite <- E. split; [now rewrite commas_join, join_split|].
    split; [|split; assumption]. apply Forall_forall. intros p Hp. eapply split_pieces. exact Hp.
  - intros (b & e & a & -> & P & F & G). exists b, e, a. split; [|split; assumption].
    rewrite commas_join. apply split_join; [destruct b; discriminate|]. now apply Forall_forall.
Qed.

(** ** Required components *)
Lemma cl_get_item_in_iff (l : list item) (t : str) :
  cl_get_item_in l t <> None <-> exists i, In i l /\ it_bare i = BString t.
Proof.
  induction l as [|i l IH]; cbn [cl_get_item_in].
  - split; [congruence|]. intros (i & [] & _).
  - assert (Skip : as_str (it_bare i) <> Some t ->
      (cl_get_item_in l t <> None <-> exists j, In j (i :: l) /\ it_bare j = BString t)).
    { intro N. rewrite IH. split; intros (j & H1 & H2).
      - exists j. split; [now right|exact H2].
      - destruct H1 as [->|H1]; [exfalso; apply N; now rewrite H2|]. eauto. }
    destruct (as_str (it_bare i)) as [k|] eqn:E; [|apply Skip; discriminate].
    destruct (str_eqb t k) eqn:Q.
    + apply str_eqb_eq in Q. subst k. split; [|congruence]. intros _. exists i. split; [now left|].
      destruct (it_bare i); cbn in E; congruence.
    + apply Skip. intro F. injection F as ->. rewrite str_eqb_refl in Q. discriminate.
Qed.
Lemma comp_string_iff (q : component) (t : str) :
  comp_to_string q = Done t <-> match q with CHeader h => t = h | CDerived d => item_text (dc_item d) t end.
Proof.
  destruct q as [d|h]; cbn [comp_to_string].
  - unfold dc_to_string. rewrite item_text_iff. destruct (ser_item (dc_item d)); cbn [unwrap]; split; congruence.
  - split; congruence.
Qed.
Lemma check_required_iff (l : inner_list) (req : list component) :
  check_required l req = Done true <->
  Forall (fun q => exists t, match q with CHeader h => t = h | CDerived d => item_text (dc_item d) t end
                 /\ exists i, In i (il_items l) /\ it_bare i = BString t) req.
Proof.
  induction req as [|q req IH]; cbn [check_required].
  - split; [constructor|reflexivity].
  - destruct (comp_to_string q) as [t|] eqn:E; cbn [obind].
    + unfold cl_get_item. pose proof (cl_get_item_in_iff (il_items l) t) as G.
      destruct (cl_get_item_in (il_items l) t) as [i|].
      * rewrite IH. split; intro H.
        -- constructor; [|exact H]. exists t. split; [now apply comp_string_iff|]. apply G. discriminate.
        -- now inversion H.
      * split; [discriminate|]. intro H. inversion H as [|? ? (t' & T & I)]; subst. apply comp_string_iff in T.
        rewrite E in T. injection T as <-. apply G in I. congruence.
    + split; [discriminate|]. intro H. inversion H as [|? ? (t' & T & I)]; subst. apply comp_string_iff in T. congruence.
Qed.

(** ** Clocks *)
Lemma unix_timestamp_ok (ns : Z) : sys_clock_ok ns -> unix_timestamp ns = Done (seconds ns).
Proof.
  intros [H1 H2]. unfold unix_timestamp, seconds in *. change ns_per_sec with 1000000000%Z.
  replace (0 <=? ns)%Z with true by lia. f_equal. unfold as_i64.
  assert (0 <= ns / 1000000000)%Z by (apply Z.div_pos; lia).
  rewrite Z.mod_small; [ring|]. change (2 ^ 64)%Z with (2 ^ 63 + 2 ^ 63)%Z. lia.
Qed.
Lemma utc_now_ok (ns : Z) : utc_clock_ok ns -> utc_now ns = Done ns.
Proof.
  intros [H1 H2]. unfold utc_now, chrono_range, seconds in *. change last_date with chrono_max in H2. change ns_per_sec with 1000000000%Z.
  assert (0 <= ns / 1000000000)%Z by (apply Z.div_pos; lia). unfold chrono_min.
  replace (0 <=? ns)%Z with true by lia.
  replace (-8334601228800 <=? ns / 1000000000)%Z with true by lia.
  replace (ns / 1000000000 <=? chrono_max)%Z with true by lia. reflexivity.
Qed.

(** ** The exact acceptance condition *)
Lemma as_str_bare (o : option bare) (s : str) : opt_bind o as_str = Some s <-> o = Some (BString s).
Proof. destruct o as [[]|]; cbn; split; congruence. Qed.
Lemma as_int_bare (o : option bare) (z : Z) : opt_bind o as_int = Some z <-> o = Some (BInteger z).
Proof. destruct o as [[]|]; cbn; split; congruence. Qed.

Section Accept.
  Context {S Rem : Type} (sr : server_request_like S Rem) (r : S) (c : verifying_config) (env : verify_env).

  Lemma existsb_key (keys : list http_verifier) (base sig : str) :
    existsb (fun k => vf_verify k base sig) keys = true <-> exists k, In k keys /\ vf_verify k base sig = true.
  Proof. rewrite existsb_exists. reflexivity. Qed.

  Lemma signature_only_iff (si : signature_input) (kid : str) : sys_clock_ok (ve_sys env) ->
    (verify_signature_only sr r c env = Done (Some (si, kid)) <->
     exists cc sig, signature_headers sr r cc sig kid /\ times_ok env cc /\ key_accepts sr r c cc sig kid
                    /\ si = cc_to_signature_input cc).
  Proof.
    intro Hc. unfold verify_signature_only, oobind. split.
    - destruct (rl_derive (sr_rl sr) r (CHeader h_signature_input)) as [[input|]|] eqn:Ei; cbn [obind]; try discriminate.
      destruct (cc_parse input) as [[cc|e]|] eqn:Ep; cbn [obind]; try discriminate.
      destruct (rl_derive (sr_rl sr) r (CHeader h_signature)) as [[sigv|]|] eqn:Es; cbn [obind]; try discriminate.
      destruct (parse_signature_header sigv) as [[lab sig]|] eqn:Eh; try discriminate.
      destruct (str_eqb (cc_get_label cc) lab) eqn:El; cbn [negb]; [|discriminate].
      apply str_eqb_eq in El. subst lab.
      destruct (cc_keyid cc) as [kid'|] eqn:Ek; [|discriminate].
      destruct (cc_alg cc) as [alg|] eqn:Ea; [|discriminate].
      rewrite (unix_timestamp_ok _ Hc). cbn [obind].
      destruct (match cc_created cc with Some t => _ | None => _ end) eqn:E1; [discriminate|].
      destruct (match cc_expires cc with Some t => _ | None => _ end) eqn:E2; [discriminate|].
      destruct (vc_keys c kid') as [|k ks] eqn:K; [discriminate|].
      destruct (canonicalize (sr_rl sr) r cc) as [[[base si']|]|] eqn:Ec; cbn [obind]; try discriminate.
      destruct (existsb _ (k :: ks)) eqn:Ex; [|discriminate]. intro H. injection H as <- <-.
      apply canonicalize_ok in Ec. destruct Ec as [Eb ->]. apply existsb_key in Ex. destruct Ex as (k0 & K0 & V).
      exists cc, sig. split; [|split; [|split]].
      + exists input, sigv. split; [exact Ei|]. split; [now apply cc_parse_iff|]. split; [exact Es|].
        split; [now apply signature_member_iff|]. split.
        * rewrite value_of_get. now apply as_str_bare.
        * exists alg. rewrite value_of_get. now apply as_str_bare.
      + split; intros t Ht; rewrite value_of_get in Ht.
        * apply as_int_bare in Ht. unfold cc_created, sp_get_created in E1. change k_created with $"created" in E1.
          rewrite Ht in E1. lia.
        * apply as_int_bare in Ht. unfold cc_expires, sp_get_expires in E2. change k_expires with $"expires" in E2.
          rewrite Ht in E2. lia.
      + exists base, k0. rewrite K. repeat split; assumption.
      + reflexivity.
    - intros (cc & sig & (input & sigv & Ei & Ep & Es & Eh & Ek & alg & Ea) & [T1 T2] & (base & k & Eb & K & V) & ->).
      change h_signature_input with $"signature-input". change h_signature with $"signature".
      apply cc_parse_iff in Ep. rewrite Ei. cbn [obind]. rewrite Ep. cbn [obind]. rewrite Es. cbn [obind].
      apply signature_member_iff in Eh. rewrite Eh, str_eqb_refl. cbn [negb].
      rewrite value_of_get in Ek, Ea. apply as_str_bare in Ek, Ea.
      unfold cc_keyid, sp_get_keyid, cc_alg, sp_get_alg. change k_keyid with $"keyid". change k_alg with $"alg".
      rewrite Ek, Ea. rewrite (unix_timestamp_ok _ Hc). cbn [obind].
      assert (E1 : match cc_created cc with Some t => (seconds (ve_sys env) <? t)%Z | None => false end = false).
      { destruct (cc_created cc) as [t|] eqn:Et; [|reflexivity]. unfold cc_created, sp_get_created in Et. apply as_int_bare in Et.
        specialize (T1 t). rewrite value_of_get in T1. specialize (T1 Et). lia. }
      assert (E2 : match cc_expires cc with Some t => (t <? seconds (ve_sys env))%Z | None => false end = false).
      { destruct (cc_expires cc) as [t|] eqn:Et; [|reflexivity]. unfold cc_expires, sp_get_expires in Et. apply as_int_bare in Et.
        specialize (T2 t). rewrite value_of_get in T2. specialize (T2 Et). lia. }
      rewrite E1, E2.
      assert (Ec : canonicalize (sr_rl sr) r cc = Done (Ok (base, cc_to_signature_input cc))).
      { apply canonicalize_ok. split; [exact Eb|reflexivity]. }
      destruct (vc_keys c kid) as [|k0 ks] eqn:Q; [contradiction K|]. rewrite Ec. cbn [obind].
      replace (existsb _ (k0 :: ks)) with true; [reflexivity|]. symmetry. apply existsb_key. eauto.
  Qed.

  Lemma check_date_iff (cc : canon_config) : (vc_validate_date c = true -> utc_clock_ok (ve_utc env)) ->
    (check_date (cc_to_signature_input cc) c env = Done true <-> date_ok c env cc).
  Proof.
    intro Hc. unfold check_date, date_ok. destruct (vc_validate_date c); [|split; [discriminate|reflexivity]].
    change (si_get_param (cc_to_signature_input cc) h_date) with (imap_get (cc_params cc) $"date").
    rewrite <- value_of_get. destruct (opt_bind (value_of $"date" (cc_params cc)) as_int) as [d|] eqn:E.
    - apply as_int_bare in E. rewrite (utc_now_ok _ (Hc eq_refl)). cbn [obind]. change ns_per_sec with 1000000000%Z.
      unfold chrono_range. change chrono_min with first_date. change chrono_max with last_date.
      destruct ((first_date <=? d)%Z && (d <=? last_date)%Z) eqn:Cr.
      + split.
        * intros H _. injection H as H. exists d. split; [exact E|]. split; [lia|]. lia.
        * intro H. destruct (H eq_refl) as (d' & E' & _ & L). assert (d' = d) by congruence. subst d'.
          f_equal. lia.
      + split; [discriminate|]. intro H. destruct (H eq_refl) as (d' & E' & B & L). assert (d' = d) by congruence. subst d'. lia.
    - split; [discriminate|]. intro H. destruct (H eq_refl) as (d & E' & _). apply as_int_bare in E'. congruence.
  Qed.

  Hypothesis Hsys : sys_clock_ok (ve_sys env).
  Hypothesis Hutc : vc_validate_date c = true -> utc_clock_ok (ve_utc env).

  Lemma except_digest_iff (kid : str) :
    verify_except_digest sr r c env = Done (Some kid) <->
    exists cc sig, signature_headers sr r cc sig kid /\ times_ok env cc /\ key_accepts sr r c cc sig kid
                   /\ Forall (listed cc) (vc_required c) /\ date_ok c env cc.
  Proof.
    unfold verify_except_digest, oobind. split.
    - destruct (verify_signature_only sr r c env) as [[[si k]|]|] eqn:E; cbn [obind]; try discriminate.
      apply (signature_only_iff si k Hsys) in E. destruct E as (cc & sig & H1 & H2 & H3 & ->).
      destruct (check_required _ _) as [[|]|] eqn:Er; cbn [obind negb]; try discriminate.
      destruct (check_date _ _ _) as [[|]|] eqn:Ed; cbn [obind]; try discriminate.
      intro H. injection H as <-. apply check_required_iff in Er. apply (check_date_iff cc Hutc) in Ed.
      exists cc, sig. split; [exact H1|]. split; [exact H2|]. split; [exact H3|]. split; [|exact Ed].
      unfold listed. rewrite comp_items_eq. exact Er.
    - intros (cc & sig & H1 & H2 & H3 & H4 & H5).
      rewrite (proj2 (signature_only_iff (cc_to_signature_input cc) kid Hsys)); [|eauto 8].
      cbn [obind]. replace (check_required _ _) with (Done true); [|symmetry; apply check_required_iff].
      + cbn [obind negb]. replace (check_date _ _ _) with (Done true) by (symmetry; now apply check_date_iff). reflexivity.
      + unfold listed in H4. rewrite comp_items_eq in H4. exact H4.
  Qed.

  Lemma verify_iff (kid : str) :
    (exists rem, verify sr r c env = Done (Ok (rem, kid))) <-> accepts sr r c env kid.
  Proof.
    unfold verify. split.
    - intros (rem & H). destruct (verify_except_digest sr r c env) as [[k|]|] eqn:E; cbn [obind] in H; try discriminate.
      assert (K : k = kid /\ digest_ok sr r c).
      { unfold digest_ok, header_value. change (CHeader $"digest") with (CHeader h_digest).
        destruct (rl_derive (sr_rl sr) r (CHeader h_digest)) as [[dv|]|] eqn:Ed; cbn [obind] in H; try discriminate.
        - destruct (vc_validate_digest c) eqn:V.
          + destruct (first_digest (vc_digests c) (split "," dv)) as [[alg v]|] eqn:F; [|discriminate].
            destruct (sr_complete_with_digest sr r alg) as [[ex|] rm] eqn:Q; [|discriminate].
            destruct (str_eqb v ex) eqn:T; [|discriminate]. injection H as _ <-. split; [reflexivity|].
            left. exists dv. split; [reflexivity|]. intros _. exists alg, v. split; [now apply first_entry_iff|].
            rewrite Q. apply str_eqb_eq in T. cbn [fst]. congruence.
          + injection H as _ <-. split; [reflexivity|]. left. exists dv. split; [reflexivity|]. discriminate.
        - destruct (vc_require_digest c) eqn:V.
          + destruct (sr_complete_with_digest sr r sha256_digest) as [[ex|] rm] eqn:Q; [discriminate|].
            injection H as _ <-. split; [reflexivity|]. right. split; [reflexivity|]. intros _. reflexivity.
          + injection H as _ <-. split; [reflexivity|]. right. split; [reflexivity|]. discriminate. }
      destruct K as [-> D]. apply except_digest_iff in E. destruct E as (cc & sig & H1 & H2 & H3 & H4 & H5).
      exists cc, sig. repeat split; try assumption; apply H2.
    - intros (cc & sig & H1 & H2 & H3 & H4 & H5 & D).
      replace (verify_except_digest sr r c env) with (Done (Some kid)).
      2:{ symmetry. apply except_digest_iff. exists cc, sig. repeat split; try assumption; apply H2. }
      cbn [obind]. destruct D as [(dv & Ed & D)|[Ed D]]; unfold header_value in *; change (CHeader h_digest) with (CHeader $"digest");
        rewrite Ed; cbn [obind].
      + destruct (vc_validate_digest c); [|eauto]. destruct (D eq_refl) as (alg & v & F & Q).
        apply first_entry_iff in F. rewrite F. destruct (sr_complete_with_digest sr r alg) as [[ex|] rm]; [|discriminate].
        injection Q as ->. rewrite str_eqb_refl. eauto.
      + destruct (vc_require_digest c); [|eauto]. specialize (D eq_refl).
        destruct (sr_complete_with_digest sr r sha256_digest) as [[ex|] rm]; [discriminate|]. eauto.
  Qed.
End Accept.

(** ** Consequences *)
Section Consequences.
  Context {S Rem : Type} (sr : server_request_like S Rem) (r : S) (c : verifying_config) (env : verify_env).

  Lemma verify_ok_inv (rem : Rem) (kid : str) : verify sr r c env = Done (Ok (rem, kid)) ->
    exists si, verify_signature_only sr r c env = Done (Some (si, kid))
      /\ check_required (si_list si) (vc_required c) = Done true /\ check_date si c env = Done true.
  Proof.
    unfold verify. intro H. destruct (verify_except_digest sr r c env) as [[k|]|] eqn:E; cbn [obind] in H; try discriminate.
    assert (K : k = kid).
    { destruct (rl_derive (sr_rl sr) r (CHeader h_digest)) as [[dv|]|]; cbn [obind] in H; try discriminate.
      - destruct (vc_validate_digest c); [|congruence].
        destruct (first_digest _ _) as [[alg v]|]; [|discriminate].
        destruct (sr_complete_with_digest sr r alg) as [[ex|] rm]; [|discriminate].
        destruct (str_eqb v ex); congruence.
      - destruct (vc_require_digest c); [|congruence].
        destruct (sr_complete_with_digest sr r sha256_digest) as [[ex|] rm]; congruence. }
    subst k. unfold verify_except_digest, oobind in E.
    destruct (verify_signature_only sr r c env) as [[[si k]|]|]; cbn [obind] in E; try discriminate.
    destruct (check_required _ _) as [[|]|] eqn:Er; cbn [obind negb] in E; try discriminate.
    destruct (check_date _ _ _) as [[|]|] eqn:Ed; cbn [obind] in E; try discriminate.
    injection E as ->. exists si. repeat split; assumption.
  Qed.
  Lemma signature_only_inv (si : signature_input) (kid : str) :
    verify_signature_only sr r c env = Done (Some (si, kid)) ->
    exists cc sig, signature_headers sr r cc sig kid /\ key_accepts sr r c cc sig kid /\ si = cc_to_signature_input cc.
  Proof.
    unfold verify_signature_only, oobind.
    destruct (rl_derive (sr_rl sr) r (CHeader h_signature_input)) as [[input|]|] eqn:Ei; cbn [obind]; try discriminate.
    destruct (cc_parse input) as [[cc|e]|] eqn:Ep; cbn [obind]; try discriminate.
    destruct (rl_derive (sr_rl sr) r (CHeader h_signature)) as [[sigv|]|] eqn:Es; cbn [obind]; try discriminate.
    destruct (parse_signature_header sigv) as [[lab sig]|] eqn:Eh; try discriminate.
    destruct (str_eqb (cc_get_label cc) lab) eqn:El; cbn [negb]; [|discriminate].
    apply str_eqb_eq in El. subst lab.
    destruct (cc_keyid cc) as [kid'|] eqn:Ek; [|discriminate].
    destruct (cc_alg cc) as [alg|] eqn:Ea; [|discriminate].
    destruct (unix_timestamp (ve_sys env)) as [ts|]; cbn [obind]; [|discriminate].
    destruct (match cc_created cc with Some t => _ | None => _ end); [discriminate|].
    destruct (match cc_expires cc with Some t => _ | None => _ end); [discriminate|].
    destruct (vc_keys c kid') as [|k ks] eqn:K; [discriminate|].
    destruct (canonicalize (sr_rl sr) r cc) as [[[base si']|]|] eqn:Ec; cbn [obind]; try discriminate.
    destruct (existsb _ (k :: ks)) eqn:Ex; [|discriminate]. intro H. injection H as <- <-.
    apply canonicalize_ok in Ec. destruct Ec as [Eb ->]. apply existsb_key in Ex. destruct Ex as (k0 & K0 & V).
    exists cc, sig. split; [|split; [|reflexivity]].
    - exists input, sigv. split; [exact Ei|]. split; [now apply cc_parse_iff|]. split; [exact Es|].
      split; [now apply signature_member_iff|]. split.
      + rewrite value_of_get. now apply as_str_bare.
      + exists alg. rewrite value_of_get. now apply as_str_bare.
    - exists base, k0. rewrite K. repeat split; assumption.
  Qed.
  Lemma accepted_signature (rem : Rem) (kid : str) : verify sr r c env = Done (Ok (rem, kid)) ->
    exists cc sig, signature_headers sr r cc sig kid /\ key_accepts sr r c cc sig kid.
  Proof.
    intro H. apply verify_ok_inv in H. destruct H as (si & H & _). apply signature_only_inv in H.
    destruct H as (cc & sig & H1 & H2 & _). eauto.
  Qed.

  (** The parsed configuration is determined by the request. *)
  Lemma signature_headers_parse (cc : canon_config) (sig kid input : str) :
    signature_headers sr r cc sig kid -> header_value sr r $"signature-input" input -> input_reads input cc.
  Proof.
    intros (i & s & H1 & H2 & _) H. unfold header_value in *. rewrite H1 in H. injection H as <-. exact H2.
  Qed.

  Lemma created_enforced (input : str) (cc : canon_config) (t : Z) : sys_clock_ok (ve_sys env) ->
    header_value sr r $"signature-input" input -> input_reads input cc ->
    value_of $"created" (cc_params cc) = Some (BInteger t) -> (seconds (ve_sys env) < t)%Z ->
    forall rem kid, verify sr r c env <> Done (Ok (rem, kid)).
  Proof.
    intros Hc Hi Hp Hv Ht rem kid H. apply verify_ok_inv in H. destruct H as (si & H & _).
    apply (signature_only_iff sr r c env si kid Hc) in H. destruct H as (cc' & sig & H1 & [T1 _] & _).
    pose proof (signature_headers_parse _ _ _ _ H1 Hi) as Hp'. pose proof (input_reads_unique _ _ _ Hp Hp') as <-.
    specialize (T1 t Hv). lia.
  Qed.
  Lemma expires_enforced (input : str) (cc : canon_config) (t : Z) : sys_clock_ok (ve_sys env) ->
    header_value sr r $"signature-input" input -> input_reads input cc ->
    value_of $"expires" (cc_params cc) = Some (BInteger t) -> (t < seconds (ve_sys env))%Z ->
    forall rem kid, verify sr r c env <> Done (Ok (rem, kid)).
  Proof.
    intros Hc Hi Hp Hv Ht rem kid H. apply verify_ok_inv in H. destruct H as (si & H & _).
    apply (signature_only_iff sr r c env si kid Hc) in H. destruct H as (cc' & sig & H1 & [_ T2] & _).
    pose proof (signature_headers_parse _ _ _ _ H1 Hi) as Hp'. pose proof (input_reads_unique _ _ _ Hp Hp') as <-.
    specialize (T2 t Hv). lia.
  Qed.

  (** The date check does not depend on the digest and signature parts. *)
  Lemma date_enforced (rem : Rem) (kid : str) : utc_clock_ok (ve_utc env) -> vc_validate_date c = true ->
    verify sr r c env = Done (Ok (rem, kid)) ->
    exists input cc d, header_value sr r $"signature-input" input /\ input_reads input cc
      /\ value_of $"date" (cc_params cc) = Some (BInteger d) /\ (first_date <= d <= last_date)%Z
      /\ (- vc_date_leeway c <= d * 1000000000 - ve_utc env <= vc_date_leeway c)%Z.
  Proof.
    intros Hu Hv H. apply verify_ok_inv in H. destruct H as (si & H & _ & D). apply signature_only_inv in H.
    destruct H as (cc & sig & (i & s & H1 & H2 & _) & _ & ->).
    apply (check_date_iff c env cc (fun _ => Hu)) in D. destruct (D Hv) as (d & D1 & D2 & D3).
    exists i, cc, d. repeat split; try assumption; lia.
  Qed.

  (** Components of a parsed configuration. *)
  Lemma parsed_string_item (input : str) (cc : canon_config) (i : item) (t : str) :
    input_reads input cc -> In i (map component_item (cc_components cc)) -> it_bare i = BString t ->
    In (CHeader t) (cc_components cc) /\ hname_ok t = true
    \/ exists n d, t = "@"%char :: n /\ In (CDerived d) (cc_components cc) /\ dc_item d = i.
  Proof.
    intros Hp Hi Hb. apply input_reads_rep in Hp. destruct Hp as (_ & Hr & _).
    apply in_map_iff in Hi. destruct Hi as (q & <- & Hq). rewrite Forall_forall in Hr. pose proof (Hr q Hq) as Rq.
    destruct q as [d|h]; cbn [component_item] in Hb; cbn [component_rep] in Rq.
    - right. destruct Rq as (n & E & _). exists n, d. split; [congruence|]. split; [exact Hq|reflexivity].
    - left. injection Hb as <-. split; [exact Hq|now apply header_name_ok].
  Qed.
  Lemma item_text_derived_quote (d : derived) (t : str) : component_rep (CDerived d) -> item_text (dc_item d) t ->
    exists t', t = ch_quote :: t'.
  Proof.
    intros (n & E & _) (a & b & A & _ & ->). rewrite E in A. destruct A as [_ ->]. cbn [app]. eauto.
  Qed.
  Lemma derived_never_listed (input : str) (cc : canon_config) (d : derived) :
    input_reads input cc -> component_rep (CDerived d) -> ~ listed cc (CDerived d).
  Proof.
    intros Hp Hr (t & T & i & Hi & Hb). destruct (item_text_derived_quote d t Hr T) as (t' & ->).
    destruct (parsed_string_item _ _ _ _ Hp Hi Hb) as [[_ N]|(n & d' & E & _)]; [|discriminate].
    unfold hname_ok in N. cbn [forallb] in N. rewrite !andb_true_iff in N. destruct N as (_ & (N & _) & _). discriminate.
  Qed.
  Lemma header_listed (input : str) (cc : canon_config) (h : str) :
    input_reads input cc -> header_name h -> (listed cc (CHeader h) <-> In (CHeader h) (cc_components cc)).
  Proof.
    intros Hp Hh. split.
    - intros (t & -> & i & Hi & Hb). destruct (parsed_string_item _ _ _ _ Hp Hi Hb) as [[H _]|(n & d' & E & _)]; [exact H|].
      apply header_name_ok in Hh. subst h. unfold hname_ok in Hh. cbn [forallb] in Hh. rewrite !andb_true_iff in Hh.
      destruct Hh as (_ & (N & _) & _). discriminate.
    - intro H. exists h. split; [reflexivity|]. exists (Item (BString h) []). split; [|reflexivity].
      apply in_map_iff. exists (CHeader h). split; [reflexivity|exact H].
  Qed.
  Lemma required_listed (rem : Rem) (kid : str) (q : component) :
    verify sr r c env = Done (Ok (rem, kid)) -> In q (vc_required c) -> component_rep q ->
    exists input cc, header_value sr r $"signature-input" input /\ input_reads input cc
                     /\ In q (cc_components cc).
  Proof.
    intros H Hq Hr. apply verify_ok_inv in H. destruct H as (si & H & R & _). apply signature_only_inv in H.
    destruct H as (cc & sig & (i & s & H1 & H2 & _) & _ & ->). apply check_required_iff in R.
    rewrite Forall_forall in R. specialize (R q Hq).
    assert (L : listed cc q) by (unfold listed; rewrite comp_items_eq; exact R).
    exists i, cc. split; [exact H1|]. split; [exact H2|]. destruct q as [d|h].
    - exfalso. exact (derived_never_listed i cc d H2 Hr L).
    - now apply (header_listed i cc h H2 Hr).
  Qed.
  Lemma required_derived_rejected (d : derived) : In (CDerived d) (vc_required c) -> component_rep (CDerived d) ->
    forall rem kid, verify sr r c env <> Done (Ok (rem, kid)).
  Proof.
    intros Hq Hr rem kid H. apply verify_ok_inv in H. destruct H as (si & H & R & _). apply signature_only_inv in H.
    destruct H as (cc & sig & (i & s & H1 & H2 & _) & _ & ->). apply check_required_iff in R.
    rewrite Forall_forall in R. specialize (R _ Hq).
    assert (L : listed cc (CDerived d)) by (unfold listed; rewrite comp_items_eq; exact R).
    exact (derived_never_listed i cc d H2 Hr L).
  Qed.

  (** Digest rule. *)
  Lemma digest_enforced (rem : Rem) (kid : str) (dv : str) : vc_validate_digest c = true ->
    header_value sr r $"digest" dv -> verify sr r c env = Done (Ok (rem, kid)) ->
    exists alg v, first_entry (vc_digests c) dv alg v /\ fst (sr_complete_with_digest sr r alg) = Some v.
  Proof.
    intros V D. unfold verify. destruct (verify_except_digest sr r c env) as [[k|]|]; cbn [obind]; try discriminate.
    unfold header_value in D. change (CHeader h_digest) with (CHeader $"digest"). rewrite D. cbn [obind]. rewrite V.
    destruct (first_digest _ _) as [[alg v]|] eqn:F; [|discriminate].
    destruct (sr_complete_with_digest sr r alg) as [[ex|] rm] eqn:Q; [|discriminate].
    destruct (str_eqb v ex) eqn:T; [|discriminate]. intros _. exists alg, v. split; [now apply first_entry_iff|].
    rewrite Q. apply str_eqb_eq in T. cbn. congruence.
  Qed.
  Lemma digest_required (rem : Rem) (kid : str) (d : str) : vc_require_digest c = true ->
    rl_derive (sr_rl sr) r (CHeader $"digest") = Done None ->
    fst (sr_complete_with_digest sr r sha256_digest) = Some d ->
    verify sr r c env <> Done (Ok (rem, kid)).
  Proof.
    intros V D B. unfold verify. destruct (verify_except_digest sr r c env) as [[k|]|]; cbn [obind]; try discriminate.
    change (CHeader h_digest) with (CHeader $"digest"). rewrite D. cbn [obind]. rewrite V.
    destruct (sr_complete_with_digest sr r sha256_digest) as [[ex|] rm]; discriminate.
  Qed.
End Consequences.

(** ** Panics *)
Section Panics.
  Context {S Rem : Type} (sr : server_request_like S Rem) (r : S) (c : verifying_config) (env : verify_env).
  Hypothesis Ht : total_request (sr_rl sr) r.
  Hypothesis Hsys : sys_clock_ok (ve_sys env).
  Hypothesis Hutc : vc_validate_date c = true -> utc_clock_ok (ve_utc env).
  Hypothesis Hreq : Forall (fun q => exists t, match q with CHeader h => t = h | CDerived d => item_text (dc_item d) t end)
                           (vc_required c).

  Lemma check_required_total (l : inner_list) : check_required l (vc_required c) <> Panic.
  Proof.
    clear - Hreq. induction (vc_required c) as [|q req IH]; cbn [check_required]; [discriminate|].
    inversion Hreq as [|? ? (t & T) H']; subst. apply comp_string_iff in T. rewrite T. cbn [obind].
    destruct (cl_get_item l t); [now apply IH|discriminate].
  Qed.
  Lemma parsed_derive_total (input : str) (cc : canon_config) (q : component) :
    input_reads input cc -> In q (cc_components cc) -> rl_derive (sr_rl sr) r q <> Panic.
  Proof.
    intros Hp Hq. apply input_reads_rep in Hp. destruct Hp as (_ & Hr & _). rewrite Forall_forall in Hr.
    specialize (Hr q Hq). destruct q as [d|h]; cbn [component_rep] in Hr.
    - destruct Hr as (n & E & _). destruct (proj2 Ht d _ E) as (o & ->). discriminate.
    - destruct (proj1 Ht h) as (o & ->). discriminate.
  Qed.
  Lemma signature_only_panic :
    verify_signature_only sr r c env = Panic <->
    exists input, header_value sr r $"signature-input" input /\ forall cc, ~ input_reads input cc.
  Proof.
    unfold verify_signature_only, oobind, header_value. change (CHeader $"signature-input") with (CHeader h_signature_input).
    destruct (proj1 Ht h_signature_input) as (oi & ->). destruct oi as [input|]; cbn [obind].
    2:{ split; [discriminate|]. intros (i & H & _). congruence. }
    destruct (cc_parse input) as [[cc|e]|] eqn:Ep; cbn [obind].
    - split.
      2:{ intros (i & H & N). injection H as <-. now apply cc_parse_iff, N in Ep. }
      destruct (proj1 Ht h_signature) as (os & ->). destruct os as [sigv|]; cbn [obind]; [|discriminate].
      destruct (parse_signature_header sigv) as [[lab sig]|]; [|discriminate].
      destruct (negb (str_eqb (cc_get_label cc) lab)); [discriminate|].
      destruct (cc_keyid cc) as [kid|]; [|discriminate]. destruct (cc_alg cc) as [alg|]; [|discriminate].
      rewrite (unix_timestamp_ok _ Hsys). cbn [obind].
      destruct (match cc_created cc with Some t => _ | None => _ end); [discriminate|].
      destruct (match cc_expires cc with Some t => _ | None => _ end); [discriminate|].
      destruct (vc_keys c kid) as [|k ks]; [discriminate|].
      destruct (canonicalize (sr_rl sr) r cc) as [[[base si]|]|] eqn:Ec; cbn [obind]; try discriminate.
      + destruct (existsb _ _); discriminate.
      + intros _. exfalso. destruct (parsed_base input cc (sr_rl sr) r Ep Ec) as (q & Hq & Hd).
        exact (parsed_derive_total input cc q (proj1 (cc_parse_iff _ _) Ep) Hq Hd).
    - split; [|reflexivity]. intros _. exists input. split; [reflexivity|]. intros cc H. apply cc_parse_iff in H. congruence.
    - split; [|reflexivity]. intros _. exists input. split; [reflexivity|]. intros cc H. apply cc_parse_iff in H. congruence.
  Qed.
  Lemma verify_panic_iff :
    verify sr r c env = Panic <->
    exists input, header_value sr r $"signature-input" input /\ forall cc, ~ input_reads input cc.
  Proof.
    rewrite <- signature_only_panic. unfold verify, verify_except_digest, oobind.
    destruct (verify_signature_only sr r c env) as [[[si k]|]|] eqn:E; cbn [obind]; [| |split; reflexivity].
    - split; [|discriminate]. pose proof (check_required_total (si_list si)) as R.
      destruct (check_required _ _) as [[|]|]; cbn [obind negb]; [| |congruence]; [|discriminate].
      apply signature_only_inv in E. destruct E as (cc & _ & _ & _ & ->).
      assert (D : check_date (cc_to_signature_input cc) c env <> Panic).
      { unfold check_date. destruct (vc_validate_date c); [|discriminate]. destruct (opt_bind _ _) as [d|]; [|discriminate].
        destruct (chrono_range d); [|discriminate]. rewrite (utc_now_ok _ (Hutc eq_refl)). discriminate. }
      destruct (check_date _ _ _) as [[|]|]; cbn [obind]; [| |congruence]; [|discriminate].
      destruct (proj1 Ht h_digest) as (od & ->). cbn [obind]. destruct od as [dv|].
      + destruct (vc_validate_digest c); [|discriminate]. destruct (first_digest _ _) as [[alg v]|]; [|discriminate].
        destruct (sr_complete_with_digest sr r alg) as [[ex|] rm]; [|discriminate]. destruct (str_eqb v ex); discriminate.
      + destruct (vc_require_digest c); [|discriminate].
        destruct (sr_complete_with_digest sr r sha256_digest) as [[ex|] rm]; discriminate.
    - split; discriminate.
  Qed.
End Panics.
