(** Proofs about histories (for PropHist.v). *)
From Verif Require Export SpecHist LineFacts.
From Coq Require Import Sorted Permutation.

(** ** Last calls *)
Lemma last_some_app {A B} (f : A -> option B) (l : list A) (x : A) :
  last_some f (l ++ [x]) = match f x with Some b => Some b | None => last_some f l end.
Proof. unfold last_some. rewrite fold_left_app. reflexivity. Qed.
Lemma fold_snoc {A B} (f : A -> B -> A) (l : list B) (x : B) (a : A) : fold_left f (l ++ [x]) a = f (fold_left f l a) x.
Proof. rewrite fold_left_app. reflexivity. Qed.

(** ** C23 *)
Lemma skp_provide_add (m : simple_keys) (id id' : str) (k : http_verifier) :
  skp_provide (skp_add m id k) id' = if str_eqb id id' then skp_provide m id ++ [k] else skp_provide m id'.
Proof. unfold skp_provide, skp_add. rewrite imap_get_insert. now destruct (str_eqb id id'). Qed.
Lemma imap_get_filter {V} (m : imap V) (id id' : str) :
  imap_get (filter (fun kv => negb (str_eqb (fst kv) id)) m) id' = if str_eqb id id' then None else imap_get m id'.
Proof.
  induction m as [|[k v] m IH]; cbn [filter imap_get fst]; [now destruct (str_eqb id id')|].
  destruct (str_eqb k id) eqn:E; cbn [negb imap_get].
  - apply str_eqb_eq in E. subst k. rewrite IH. now destruct (str_eqb id id').
  - destruct (str_eqb k id') eqn:F; [|exact IH]. apply str_eqb_eq in F. subst k.
    rewrite str_eqb_sym, E. reflexivity.
Qed.
Lemma skp_provide_remove (m : simple_keys) (id id' : str) :
  skp_provide (skp_remove_all m id) id' = if str_eqb id id' then [] else skp_provide m id'.
Proof. unfold skp_provide, skp_remove_all. rewrite imap_get_filter. now destruct (str_eqb id id'). Qed.

Lemma added_fun (id : str) (cs : list key_call) (ks ks' : list http_verifier) : added id cs ks -> added id cs ks' -> ks = ks'.
Proof.
  intro H. revert ks'. induction H as [|k cs ks _ IH|c cs ks N _ IH]; intros ks' H'; inversion H' as [|k' cs' ks1 A|c' cs' ks1 N' A]; subst.
  - reflexivity.
  - f_equal. now apply IH.
  - exfalso. now apply (N' k).
  - exfalso. now apply (N k').
  - now apply IH.
Qed.
Lemma added_snoc_yes (id : str) (cs : list key_call) (ks : list http_verifier) (k : http_verifier) :
  added id cs ks -> added id (cs ++ [AddKey id k]) (ks ++ [k]).
Proof. induction 1; cbn [app]; constructor; try assumption. constructor. Qed.
Lemma added_snoc_no (id : str) (cs : list key_call) (ks : list http_verifier) (c : key_call) :
  (forall k, c <> AddKey id k) -> added id cs ks -> added id (cs ++ [c]) ks.
Proof. intro N. induction 1; cbn [app]; constructor; try assumption. constructor. Qed.
Lemma forgets_dec (id : str) (c : key_call) : {forgets id c} + {~ forgets id c}.
Proof.
  destruct c as [i k|i|]; [right; intros [H|H]; discriminate| |left; now right].
  destruct (list_eq_dec ascii_dec i id) as [->|N]; [left; now left|right]. intros [H|H]; [congruence|discriminate].
Qed.
(** The recent part is determined. *)
Lemma suffix_forgets (id : str) (old l recent : list key_call) :
  (old ++ l = [] \/ exists o c, old ++ l = o ++ [c] /\ forgets id c) -> Forall (fun c => ~ forgets id c) (l ++ recent) -> l = [].
Proof.
  intros H R. assert (X : l = [] \/ exists o c, l = o ++ [c]) by (clear; induction l as [|c l _] using rev_ind; [now left|right; eauto]).
  destruct X as [E|(o & c & ->)];
    [exact E|]. exfalso.
  rewrite app_assoc in H. destruct H as [H|(o' & c' & H & F)].
  - now apply app_eq_nil in H.
  - apply app_inj_tail in H. destruct H as [_ <-].
    rewrite Forall_app in R. destruct R as [R _]. rewrite Forall_app in R. destruct R as [_ R]. inversion R; subst. contradiction.
Qed.
Lemma keys_since_fun (id : str) (calls : list key_call) (ks ks' : list http_verifier) :
  keys_since id calls ks -> keys_since id calls ks' -> ks = ks'.
Proof.
  intros (old & recent & E & H & R & A) (old' & recent' & E' & H' & R' & A'). subst calls.
  apply app_eq_app in E'. destruct E' as (l & [[E1 E2]|[E1 E2]]); subst.
  - apply suffix_forgets with (recent := recent) in H; [|exact R']. subst l. cbn [app] in *. eapply added_fun; eassumption.
  - apply suffix_forgets with (recent := recent') in H'; [|exact R]. subst l. cbn [app] in *. eapply added_fun; eassumption.
Qed.
Lemma keys_since_run (id : str) (calls : list key_call) :
  keys_since id calls (skp_provide (fold_left key_do calls []) id).
Proof.
  induction calls as [|c calls IH] using rev_ind.
  - exists [], []. split; [reflexivity|]. split; [now left|]. split; constructor.
  - rewrite fold_snoc. destruct IH as (old & recent & E & H & R & A).
    destruct (forgets_dec id c) as [F|F].
    + exists (calls ++ [c]), []. split; [now rewrite app_nil_r|]. split; [right; eauto|]. split; [constructor|].
      destruct F as [->| ->]; cbn [key_do].
      * rewrite skp_provide_remove, str_eqb_refl. constructor.
      * constructor.
    + exists old, (recent ++ [c]). split; [rewrite E; now rewrite app_assoc|]. split; [exact H|].
      split; [apply Forall_app; split; [exact R|now constructor]|].
      destruct c as [i k|i|]; cbn [key_do].
      * rewrite skp_provide_add. destruct (str_eqb i id) eqn:X.
        -- apply str_eqb_eq in X. subst i. now apply added_snoc_yes.
        -- apply str_eqb_neq in X. apply added_snoc_no; [congruence|exact A].
      * rewrite skp_provide_remove. destruct (str_eqb i id) eqn:X.
        -- apply str_eqb_eq in X. subst i. exfalso. apply F. now left.
        -- apply added_snoc_no; [discriminate|exact A].
      * exfalso. apply F. now right.
Qed.
Lemma skp_new_run (l : list (str * http_verifier)) : skp_new l = fold_left key_do (map (fun kv => AddKey (fst kv) (snd kv)) l) [].
Proof.
  unfold skp_new. generalize (@nil (str * list http_verifier)). induction l as [|[k v] l IH]; intro m; [reflexivity|]. cbn [fold_left map fst snd key_do]. apply IH.
Qed.
Lemma key_history (init : list (str * http_verifier)) (calls : list key_call) (id : str) (ks : list http_verifier) :
  skp_provide (fold_left key_do calls (skp_new init)) id = ks
  <-> keys_since id (map (fun kv => AddKey (fst kv) (snd kv)) init ++ calls) ks.
Proof.
  rewrite skp_new_run, <- fold_left_app. pose proof (keys_since_run id (map (fun kv => AddKey (fst kv) (snd kv)) init ++ calls)) as H.
  split; [now intros <-|]. intro H'. eapply keys_since_fun; eassumption.
Qed.

Lemma Forall2_weaken {A B} (P Q : A -> B -> Prop) (l : list A) (m : list B) : (forall a b, P a b -> Q a b) -> Forall2 P l m -> Forall2 Q l m.
Proof. intro H. induction 1; constructor; auto. Qed.

(** ** C41 *)
Lemma param_do_insert (p : params) (c : param_call) : param_do p c = imap_insert p (fst (param_entry c)) (snd (param_entry c)).
Proof. now destruct c. Qed.
Lemma run_get (calls : list param_call) (p : params) (k : str) :
  imap_get (fold_left param_do calls p) k = match last_some (entry_of k) calls with Some v => Some v | None => imap_get p k end.
Proof.
  induction calls as [|c calls IH] using rev_ind; [reflexivity|]. rewrite fold_snoc, last_some_app, param_do_insert, imap_get_insert, IH.
  unfold entry_of. destruct (list_eq_dec ascii_dec (fst (param_entry c)) k) as [E|E].
  - rewrite E, str_eqb_refl. reflexivity.
  - apply str_eqb_neq in E. now rewrite E.
Qed.
Lemma nodup_cons_snoc (l : list str) (k : str) : first_occurrences (l ++ [k]) =
  if existsb (str_eqb k) (first_occurrences l) then first_occurrences l else first_occurrences l ++ [k].
Proof.
  unfold first_occurrences. rewrite rev_unit. cbn [nodup].
  destruct (in_dec (list_eq_dec ascii_dec) k (rev l)) as [I|N].
  - replace (existsb _ _) with true; [reflexivity|]. symmetry. apply existsb_str_In. apply -> in_rev. now apply nodup_In.
  - replace (existsb _ _) with false; [reflexivity|]. symmetry. destruct (existsb _ _) eqn:E; [|reflexivity].
    apply existsb_str_In in E. apply in_rev in E. apply nodup_In in E. contradiction.
Qed.
Lemma run_keys (calls : list param_call) :
  keys (fold_left param_do calls []) = first_occurrences (map (fun c => fst (param_entry c)) calls).
Proof.
  induction calls as [|c calls IH] using rev_ind; [reflexivity|].
  rewrite fold_snoc, map_app. cbn [map]. rewrite nodup_cons_snoc, param_do_insert, imap_insert_keys, IH. reflexivity.
Qed.
Lemma imap_by_keys {V} (m : imap V) : NoDup (keys m) ->
  exists vs, Forall2 (fun k v => imap_get m k = Some v) (keys m) vs /\ m = combine (keys m) vs.
Proof.
  intro N. exists (map snd m). split.
  - assert (G : forall k v, In (k, v) m -> imap_get m k = Some v).
    { induction m as [|[a w] m IH]; [intros ? ? []|]. inversion N as [|? ? N1 N2]; subst. intros k v [E|I].
      - injection E as -> ->. cbn [imap_get]. now rewrite str_eqb_refl.
      - cbn [imap_get]. destruct (str_eqb a k) eqn:X; [|now apply IH].
        apply str_eqb_eq in X. subst a. exfalso. apply N1. now apply (in_map fst) in I. }
    assert (H : forall m0 m1 : imap V, (forall k v, In (k, v) m1 -> imap_get m0 k = Some v) ->
        Forall2 (fun k v => imap_get m0 k = Some v) (keys m1) (map snd m1)).
    { intros m0 m1. clear. induction m1 as [|[a w] m1 IH]; intro G; [constructor|].
      cbn [keys map fst snd]. constructor; [apply G; now left|]. apply IH. intros k v I. apply G. now right. }
    now apply H.
  - clear N. induction m as [|[a w] m IH]; [reflexivity|]. cbn. f_equal. exact IH.
Qed.
Lemma first_nodup (l : list str) : NoDup (first_occurrences l).
Proof. unfold first_occurrences. apply NoDup_rev, NoDup_nodup. Qed.
Lemma params_set_run (calls : list param_call) : params_set calls (fold_left param_do calls []).
Proof.
  unfold params_set. rewrite <- run_keys. split; [reflexivity|].
  assert (N : NoDup (keys (fold_left param_do calls []))) by (rewrite run_keys; apply first_nodup).
  destruct (imap_by_keys _ N) as (vs & F & E). set (p := fold_left param_do calls []) in *.
  rewrite E. assert (G : forall k v, imap_get p k = Some v -> last_some (entry_of k) calls = Some v).
  { intros k v H. subst p. rewrite run_get in H. cbn [imap_get] in H. now destruct (last_some (entry_of k) calls). }
  clear -F G. induction F as [|k v ks vs H F IH]; [constructor|]. cbn [combine]. constructor; [now apply G|exact IH].
Qed.
Lemma getters (p : params) :
  (forall z, sp_get_created p = Some z <-> value_of $"created" p = Some (BInteger z))
  /\ (forall z, sp_get_expires p = Some z <-> value_of $"expires" p = Some (BInteger z))
  /\ (forall s, sp_get_nonce p = Some s <-> value_of $"nonce" p = Some (BToken s))
  /\ (forall s, sp_get_alg p = Some s <-> value_of $"alg" p = Some (BString s))
  /\ (forall s, sp_get_keyid p = Some s <-> value_of $"keyid" p = Some (BString s)).
Proof.
  rewrite !value_of_get. repeat split; unfold sp_get_created, sp_get_expires, sp_get_nonce, sp_get_alg, sp_get_keyid;
    change k_created with $"created"; change k_expires with $"expires"; change k_nonce with $"nonce"; change k_alg with $"alg"; change k_keyid with $"keyid";
    destruct (imap_get p _) as [[]|]; cbn [opt_bind as_int as_token as_str]; congruence.
Qed.
Lemma param_history (calls : list param_call) : let p := fold_left param_do calls [] in
  sp_get_created p = last_some p_created calls /\ sp_get_expires p = last_some p_expires calls
  /\ sp_get_nonce p = last_some p_nonce calls /\ sp_get_alg p = last_some p_alg calls /\ sp_get_keyid p = last_some p_keyid calls
  /\ params_set calls p.
Proof.
  cbv zeta. unfold sp_get_created, sp_get_expires, sp_get_nonce, sp_get_alg, sp_get_keyid. rewrite !run_get.
  assert (G : forall (A : Type) (k : str) (g : bare -> option A) (f : param_call -> option A),
    (forall c, f c = match entry_of k c with Some b => g b | None => None end) ->
    (forall c b, entry_of k c = Some b -> exists a, g b = Some a) ->
    opt_bind (match last_some (entry_of k) calls with Some v => Some v | None => imap_get [] k end) g = last_some f calls).
  { intros A k g f Hf Hg. clear -Hf Hg. induction calls as [|c calls IH] using rev_ind; [reflexivity|].
    rewrite !last_some_app, Hf. destruct (entry_of k c) as [b|] eqn:E; [|exact IH]. cbn [opt_bind]. destruct (Hg c b E) as [a ->]. reflexivity. }
  split; [apply G; [now intros []|intros [] b H; try discriminate; injection H as <-; cbn; eauto]|].
  split; [apply G; [now intros []|intros [] b H; try discriminate; injection H as <-; cbn; eauto]|].
  split; [apply G; [now intros []|intros [] b H; try discriminate; injection H as <-; cbn; eauto]|].
  split; [apply G; [now intros []|intros [] b H; try discriminate; injection H as <-; cbn; eauto]|].
  split; [apply G; [now intros []|intros [] b H; try discriminate; injection H as <-; cbn; eauto]|].
  apply params_set_run.
Qed.

(** ** C42: CanonicalizeConfig *)
Lemma canon_history (calls : list canon_call) : let c := fold_left canon_do calls cc_new in
  cc_get_label c = or_default $"sig" (last_some c_label calls)
  /\ cc_components c = or_default [] (last_some c_components calls)
  /\ cc_created c = last_some (c_param p_created) calls /\ cc_expires c = last_some (c_param p_expires) calls
  /\ cc_alg c = last_some (c_param p_alg) calls /\ cc_keyid c = last_some (c_param p_keyid) calls
  /\ sp_get_nonce (cc_params c) = last_some (c_param p_nonce) calls.
Proof.
  cbv zeta. assert (L : cc_label (fold_left canon_do calls cc_new) = last_some c_label calls).
  { induction calls as [|c calls IH] using rev_ind; [reflexivity|]. rewrite fold_snoc, last_some_app.
    destruct c as [l|l|[]]; cbn; try reflexivity; exact IH. }
  split; [unfold cc_get_label; rewrite L; now destruct (last_some c_label calls)|]. clear L.
  unfold cc_created, cc_expires, cc_alg, cc_keyid, sp_get_created, sp_get_expires, sp_get_nonce, sp_get_alg, sp_get_keyid.
  induction calls as [|c calls IH] using rev_ind; [repeat split; reflexivity|]. rewrite fold_snoc, !last_some_app.
  destruct IH as (I1 & I2 & I3 & I4 & I5 & I6).
  destruct c as [l|l|c]; [cbn; auto 10|cbn; auto 10|].
  assert (P : cc_params (canon_do (fold_left canon_do calls cc_new) (CSetParam c)) = param_do (cc_params (fold_left canon_do calls cc_new)) c) by now destruct c.
  assert (Q : cc_components (canon_do (fold_left canon_do calls cc_new) (CSetParam c)) = cc_components (fold_left canon_do calls cc_new)) by now destruct c.
  rewrite P, Q, param_do_insert, !imap_get_insert. destruct c; cbn; auto 10.
Qed.

Lemma canon_params_run (calls : list canon_call) : cc_params (fold_left canon_do calls cc_new) = fold_left param_do (param_calls calls) [].
Proof.
  induction calls as [|c calls IH] using rev_ind; [reflexivity|]. unfold param_calls in *. rewrite fold_snoc, flat_map_app, fold_left_app, <- IH.
  destruct c as [l|l|c]; [reflexivity|reflexivity|]. now destruct c.
Qed.
Lemma printed_params {R} (rl : request_like R) (r : R) (calls : list canon_call) (base : str) (si : signature_input) :
  canonicalize rl r (fold_left canon_do calls cc_new) = Done (Ok (base, si)) ->
  exists p, params_set (param_calls calls) p /\ signature_base (rl_derive rl r) (or_default [] (last_some c_components calls)) p base.
Proof.
  intro H. apply canonicalize_ok_spec in H. destruct H as [H _]. exists (fold_left param_do (param_calls calls) []).
  split; [apply params_set_run|]. rewrite <- canon_params_run. now rewrite (proj1 (proj2 (canon_history calls))) in H.
Qed.

(** ** C42: SigningConfig *)
Lemma sign_history (label key_id : str) (alg : http_signer) (calls : list sign_call) :
  let c := fold_left sign_do calls (sc_new label key_id alg) in
  sc_label c = label /\ sc_key_id c = key_id /\ sc_signature c = alg
  /\ sc_nonce c = last_some s_nonce calls
  /\ sc_digest c = or_default sha256_digest (last_some s_digest calls)
  /\ sc_components c = or_default [] (last_some s_components calls)
  /\ sc_compute_digest c = or_default true (last_some s_compute_digest calls)
  /\ sc_add_date c = or_default true (last_some s_add_date calls)
  /\ sc_add_host c = or_default true (last_some s_add_host calls)
  /\ sc_skip_missing c = or_default true (last_some s_skip_missing calls)
  /\ (sc_created_auto c = true <-> last_some s_created calls = Some None)
  /\ (forall t, sc_created_at c = Some t <-> last_some s_created calls = Some (Some t))
  /\ (forall o, sc_expires_relative c = Some o <-> last_some s_expires calls = Some (inl o))
  /\ (forall t, sc_expires_at c = Some t <-> last_some s_expires calls = Some (inr t)).
Proof.
  cbv zeta. assert (C : sc_created (fold_left sign_do calls (sc_new label key_id alg))
    = match last_some s_created calls with None => CrOmit | Some None => CrAutomatic | Some (Some t) => CrAbsolute t end).
  { induction calls as [|c calls IH] using rev_ind; [reflexivity|]. rewrite fold_snoc, last_some_app. destruct c; cbn; try exact IH; reflexivity. }
  assert (X : sc_expires (fold_left sign_do calls (sc_new label key_id alg))
    = match last_some s_expires calls with None => ExOmit | Some (inl o) => ExRelative o | Some (inr t) => ExAbsolute t end).
  { clear C. induction calls as [|c calls IH] using rev_ind; [reflexivity|]. rewrite fold_snoc, last_some_app. destruct c; cbn; try exact IH; reflexivity. }
  unfold sc_created_auto, sc_created_at, sc_expires_relative, sc_expires_at. rewrite C, X.
  assert (Y : (match match last_some s_created calls with None => CrOmit | Some None => CrAutomatic | Some (Some t) => CrAbsolute t end with
               CrAutomatic => true | _ => false end = true <-> last_some s_created calls = Some None)
    /\ (forall t, match match last_some s_created calls with None => CrOmit | Some None => CrAutomatic | Some (Some t) => CrAbsolute t end with
               CrAbsolute t => Some t | _ => None end = Some t <-> last_some s_created calls = Some (Some t))
    /\ (forall o, match match last_some s_expires calls with None => ExOmit | Some (inl o) => ExRelative o | Some (inr t) => ExAbsolute t end with
               ExRelative o => Some o | _ => None end = Some o <-> last_some s_expires calls = Some (inl o))
    /\ (forall t, match match last_some s_expires calls with None => ExOmit | Some (inl o) => ExRelative o | Some (inr t) => ExAbsolute t end with
               ExAbsolute t => Some t | _ => None end = Some t <-> last_some s_expires calls = Some (inr t))).
  { destruct (last_some s_created calls) as [[]|], (last_some s_expires calls) as [[]|]; repeat split; intros; try congruence; discriminate. }
  clear C X. revert Y. match goal with |- ?Y -> _ => generalize Y end. intros Y HY.
  assert (Z : let c := fold_left sign_do calls (sc_new label key_id alg) in
    sc_label c = label /\ sc_key_id c = key_id /\ sc_signature c = alg
    /\ sc_nonce c = last_some s_nonce calls
    /\ sc_digest c = or_default sha256_digest (last_some s_digest calls)
    /\ sc_components c = or_default [] (last_some s_components calls)
    /\ sc_compute_digest c = or_default true (last_some s_compute_digest calls)
    /\ sc_add_date c = or_default true (last_some s_add_date calls)
    /\ sc_add_host c = or_default true (last_some s_add_host calls)
    /\ sc_skip_missing c = or_default true (last_some s_skip_missing calls)).
  { cbv zeta. clear. induction calls as [|c calls IH] using rev_ind; [repeat split; reflexivity|]. rewrite fold_snoc, !last_some_app.
    destruct IH as (I1 & I2 & I3 & I4 & I5 & I6 & I7 & I8 & I9 & I10). destruct c; cbn; auto 20. }
  cbv zeta in Z. tauto.
Qed.
