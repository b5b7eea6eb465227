(** Components made in code; signatures between the two libraries. *)
From Verif Require Export SpecMake.
From Verif Require Import StrFacts SfvFacts SpecFacts GrammarFacts CompFacts HistFacts LineFacts AlgFacts KeyFacts.

(** ** Components *)
Definition strings (ps : list (str * str)) : params := map (fun kv => (fst kv, BString (snd kv))) ps.
Lemma strings_insert (ps : list (str * str)) (k v : str) : imap_insert (strings ps) k (BString v) = strings (imap_insert ps k v).
Proof.
  unfold strings. induction ps as [|[a w] ps IH]; [reflexivity|]. cbn [map imap_insert fst snd].
  destruct (str_eqb a k); [reflexivity|]. cbn [map fst snd]. now rewrite IH.
Qed.
Lemma made_from (calls : list (str * str)) (n : str) (ps : list (str * str)) :
  fold_left (fun d kv => dc_with_param d (fst kv) (snd kv)) calls (Derived (Item (BString n) (strings ps)))
  = Derived (Item (BString n) (strings (inserts ps calls))).
Proof.
  revert ps. induction calls as [|[k v] calls IH]; intro ps; [reflexivity|]. cbn [fold_left fst snd].
  unfold dc_with_param at 2. cbn [dc_item it_bare it_params]. rewrite strings_insert. apply IH.
Qed.
Lemma made_is (n : str) (calls ps : list (str * str)) : map_of calls ps -> made n calls = Derived (Item (BString n) (strings ps)).
Proof. intro M. apply map_of_iff in M. subst ps. exact (made_from calls n []). Qed.
Lemma strings_value (ps : list (str * str)) (k : str) : value_of k (strings ps) = option_map BString (value_of k ps).
Proof.
  induction ps as [|[a w] ps IH]; [reflexivity|]. cbn [strings map value_of fst snd].
  destruct (list_eq_dec ascii_dec a k); [reflexivity|exact IH].
Qed.
Lemma made_params (n : str) (calls : list (str * str)) :
  exists ps, map_of calls ps /\ dc_item (made n calls) = Item (BString n) (map (fun kv => (fst kv, BString (snd kv))) ps)
    /\ dc_name (made n calls) = Done n /\ forall k, dc_param (made n calls) k = value_of k (rev calls).
Proof.
  exists (inserts [] calls). pose proof (inserts_map_of calls) as M. split; [exact M|]. rewrite (made_is n calls _ M).
  split; [reflexivity|]. split; [reflexivity|]. intro k. unfold dc_param. cbn [dc_item it_params].
  rewrite <- value_of_get, strings_value, (proj2 M k). now destruct (value_of k (rev calls)).
Qed.

Lemma strings_text (ps : list (str * str)) (t : str) : params_text (strings ps) t <->
  Forall (fun kv => key_text (fst kv) (fst kv) /\ Forall visible (snd kv)) ps /\ t = List.concat (map param_of ps).
Proof.
  revert t. induction ps as [|[k v] ps IH]; intro t.
  - split; [intro H; inversion H; now split|]. intros [_ ->]. constructor.
  - cbn [strings map fst snd List.concat]. split.
    + intro H. inversion H as [| |? ? ? kt vt pt NE K V P]; subst.
      apply IH in P. destruct P as [P ->]. destruct K as (K1 & K2 & ->). destruct V as [V ->].
      split; [constructor; [|exact P]; cbn [fst snd]; split; [|exact V]; split; [exact K1|]; split; [exact K2|reflexivity]|].
      unfold param_of, quoted. cbn [fst snd]. now rewrite <- !app_assoc.
    + intros [F ->]. inversion F as [|? ? [K V] F']; subst. cbn [fst snd] in K, V.
      assert (E : param_of (k, v) ++ List.concat (map param_of ps) = [";"%char] ++ k ++ ["="%char] ++ quoted v ++ List.concat (map param_of ps)).
      { unfold param_of. cbn [fst snd]. now rewrite <- !app_assoc. }
      rewrite E. apply pt_value; [discriminate|exact K|split; [exact V|reflexivity]|]. apply IH. now split.
Qed.
Lemma made_prints (n : str) (calls ps : list (str * str)) (t : str) : map_of calls ps ->
  (comp_to_string (CDerived (made n calls)) = Done t <-> writable n ps /\ t = quoted n ++ List.concat (map param_of ps)).
Proof.
  intro M. rewrite <- prints_iff, (made_is n calls ps M). cbn [prints dc_item]. unfold item_text, writable. cbn [it_bare it_params bare_text].
  split.
  - intros (a & b & (V & ->) & B & ->). apply strings_text in B. destruct B as [B ->]. now split.
  - intros [[V B] ->]. eexists _, _. split; [split; [exact V|reflexivity]|]. split; [apply strings_text; now split|reflexivity].
Qed.
Lemma made_panics (n : str) (calls ps : list (str * str)) : map_of calls ps ->
  (comp_to_string (CDerived (made n calls)) = Panic <-> ~ writable n ps).
Proof.
  intro M. split.
  - intros P W. assert (X : comp_to_string (CDerived (made n calls)) = Done (quoted n ++ List.concat (map param_of ps))) by (apply (made_prints n calls ps); auto).
    congruence.
  - intro N. destruct (comp_to_string (CDerived (made n calls))) as [t|] eqn:E; [|reflexivity].
    apply (made_prints n calls ps t M) in E. tauto.
Qed.
Lemma same_strings (i : item) (n : str) (ps : list (str * str)) : same_item i (Item (BString n) (strings ps)) -> i = Item (BString n) (strings ps).
Proof.
  destruct i as [b p]. intros [B P]. cbn [it_bare it_params] in B, P. f_equal.
  - destruct b; cbn in B; try contradiction; exact B.
  - revert p P. induction ps as [|[k v] ps IH]; intros p P; inversion P as [|[a x] ? ? ? [E X] P']; subst; [reflexivity|].
    cbn [fst snd] in E, X. cbn [strings map fst snd]. f_equal; [|now apply IH]. subst a. destruct x; cbn in X; try contradiction; now rewrite X.
Qed.
Lemma made_parses (n : str) (calls ps : list (str * str)) (t : str) : map_of calls ps -> ~ In [] (map fst calls) ->
  comp_to_string (CDerived (made ("@"%char :: n) calls)) = Done t -> comp_from_str t = Ok (CDerived (made ("@"%char :: n) calls)).
Proof.
  intros M NE P. pose proof P as W. apply (made_prints _ calls ps t M) in W. destruct W as [[V F] _].
  assert (R : component_rep (CDerived (made ("@"%char :: n) calls))).
  { rewrite (made_is _ calls ps M). exists n. cbn [dc_item it_bare it_params]. split; [reflexivity|].
    split; [inversion V; subst; assumption|]. destruct M as [K G].
    assert (KE : map fst (strings ps) = map fst ps) by (unfold strings; rewrite map_map; reflexivity).
    split; [rewrite KE, K; apply first_occurrences_NoDup|].
    assert (NE' : ~ In [] (map fst ps)) by (rewrite K; intro I; exact (NE (proj1 (first_occurrences_In _ _) I))).
    clear K G KE P V. unfold strings. induction F as [|[k v] ps [Kt Vi] F IH]; [constructor|]. cbn [map fst snd]. constructor.
    - cbn [fst snd]. split; [|exact Vi]. split; [intros ->; apply NE'; now left|exact Kt].
    - apply IH. intro I. apply NE'. now right. }
  pose proof (proj2 (prints_iff _ t) P) as Q. destruct (comp_print_parse _ t R Q) as (c & E & S).
  rewrite E. f_equal. rewrite (made_is _ calls ps M) in *. destruct c as [[i]|h]; [|contradiction]. cbn [same_component dc_item] in S.
  now rewrite (same_strings i _ ps S).
Qed.
Lemma made_query (calls : list (str * str)) (r : rq) (m : mock) (qs qs' : list (str * str)) :
  query_params (url_query (rq_url r)) qs -> query_params (url_query (mr_url m)) qs' ->
  let c := CDerived (made $"@query-params" calls) in
  match value_of $"name" (rev calls) with
  | Some n => rq_derive r c = Done (Some (lines (values_named n qs))) /\ mr_derive m c = Done (Some (lines (values_named n qs')))
  | None => rq_derive r c = Done None /\ mr_derive m c = Done None
  end.
Proof.
  intros Q Q' c. pose proof (inserts_map_of calls) as M. unfold c. rewrite (made_is _ calls _ M).
  destruct (rq_query r (strings (inserts [] calls)) qs Q) as [A B]. destruct (mr_query m (strings (inserts [] calls)) qs' Q') as [A' B'].
  pose proof (proj2 M $"name") as V. pose proof (strings_value (inserts [] calls) $"name") as S. rewrite V in S.
  destruct (value_of $"name" (rev calls)) as [x|].
  - split; [now apply A|now apply A'].
  - split; [apply B|apply B']; intros y Y; rewrite S in Y; discriminate.
Qed.
Lemma header_name_of (s h : str) (c : component) : comp_from_str s = Ok c -> (comp_to_header_name c = Some h <-> spelled s h).
Proof.
  intro E. destruct c as [d|k]; cbn [comp_to_header_name].
  - split; [discriminate|]. intro S. apply comp_from_str_header in S. congruence.
  - split; [intro H; injection H as <-; now apply comp_from_str_header|]. intro S. apply comp_from_str_header in S. congruence.
Qed.

(** ** Keys *)
Lemma openssl_sign_is (cy : crypto) (t : key_type) (key : str) : t <> EcdsaP256Sha256 ->
  exists sg, openssl_signer cy t key = Some sg /\ signs_with cy (openssl_uses t) key sg /\ denotes (sg_name sg) (promised t).
Proof.
  intro H. destruct t; try contradiction; eexists; (split; [reflexivity|]; split; [apply raw_signs|constructor]).
Qed.
Lemma openssl_verify_is (cy : crypto) (t : key_type) (key : str) : t <> EcdsaP256Sha256 ->
  exists vf, openssl_verifier cy t key = Some vf /\ verifies_by cy (openssl_uses t) key vf /\ denotes (vf_name vf) (promised t).
Proof.
  intro H. destruct t; try contradiction; eexists; (split; [reflexivity|]; split; [apply raw_verifies|constructor]).
Qed.
Lemma then_signer (cy : crypto) (t : key_type) (o : option str) : t <> EcdsaP256Sha256 -> openssl_signer_from cy t o (andThen o (openssl_signer cy t)).
Proof.
  intro H. destruct o as [key|]; cbn [andThen openssl_signer_from]; [|reflexivity]. now apply openssl_sign_is.
Qed.
Lemma then_verifier (cy : crypto) (t : key_type) (o : option str) : t <> EcdsaP256Sha256 -> openssl_verifier_from cy t o (andThen o (openssl_verifier cy t)).
Proof.
  intro H. destruct o as [key|]; cbn [andThen openssl_verifier_from]; [|reflexivity]. now apply openssl_verify_is.
Qed.
Lemma openssl_constructors (cy : crypto) (ok : openssl_keys) (t : key_type) (b : str) : t <> EcdsaP256Sha256 ->
  openssl_signer_from cy t (ok_pkcs8 ok b) (openssl_new_pkcs8 cy ok t b)
  /\ openssl_signer_from cy t (ok_private_der ok b) (openssl_new_pkcs1_der cy ok t b)
  /\ openssl_signer_from cy t (ok_private_pem ok b) (openssl_new_pkcs1_pem cy ok t b)
  /\ openssl_verifier_from cy t (ok_public_der ok b) (openssl_new_der cy ok t b)
  /\ openssl_verifier_from cy t (ok_public_pem ok b) (openssl_new_pem cy ok t b)
  /\ openssl_new_pkcs8_pem cy ok t b = openssl_new_pkcs8 cy ok t b.
Proof.
  intro H. split; [now apply then_signer|]. split; [now apply then_signer|]. split; [now apply then_signer|].
  split; [now apply then_verifier|]. split; [now apply then_verifier|reflexivity].
Qed.
Lemma openssl_no_ecdsa (cy : crypto) (key : str) : openssl_signer cy EcdsaP256Sha256 key = None /\ openssl_verifier cy EcdsaP256Sha256 key = None.
Proof. now split. Qed.
Lemma then_some {A B} (o : option A) (a : A) (f : A -> option B) (b : B) : o = Some a -> andThen o f = Some b -> f a = Some b.
Proof. now intros ->. Qed.
Lemma openssl_signs_is (cy : crypto) (ok : openssl_keys) (t : key_type) (k : str) (sg : http_signer) : openssl_signs cy ok t k sg ->
  t <> EcdsaP256Sha256 /\ signs_with cy (openssl_uses t) k sg.
Proof.
  assert (X : openssl_signer cy t k = Some sg -> t <> EcdsaP256Sha256 /\ signs_with cy (openssl_uses t) k sg).
  { intro E. assert (N : t <> EcdsaP256Sha256) by (intros ->; discriminate). split; [exact N|].
    destruct (openssl_sign_is cy t k N) as (sg' & E' & S & _). rewrite E' in E. now injection E as <-. }
  intros [b H C|b H C|b H C|b H C]; apply X; exact (then_some _ _ _ _ H C).
Qed.
Lemma openssl_verifies_is (cy : crypto) (ok : openssl_keys) (t : key_type) (k : str) (vf : http_verifier) : openssl_verifies cy ok t k vf ->
  t <> EcdsaP256Sha256 /\ verifies_by cy (openssl_uses t) k vf.
Proof.
  assert (X : openssl_verifier cy t k = Some vf -> t <> EcdsaP256Sha256 /\ verifies_by cy (openssl_uses t) k vf).
  { intro E. assert (N : t <> EcdsaP256Sha256) by (intros ->; discriminate). split; [exact N|].
    destruct (openssl_verify_is cy t k N) as (vf' & E' & S & _). rewrite E' in E. now injection E as <-. }
  intros [b H C|b H C]; apply X; exact (then_some _ _ _ _ H C).
Qed.
Lemma ring_sign_is (cy : crypto) (t : key_type) (k : str) : signs_with cy (scheme_of t) k (ring_signer cy t k).
Proof. destruct (signer_for_ring cy t k) as (sg & E & _ & S). injection E as <-. exact S. Qed.
Lemma ring_verify_is (cy : crypto) (t : key_type) (k : str) : verifies_by cy (scheme_of t) k (ring_verifier cy t k).
Proof. destruct (verifier_for_ring cy t k) as (vf & E & _ & S). injection E as <-. exact S. Qed.
Lemma ring_signs_is (cy : crypto) (rk : ring_keys) (t : key_type) (k : str) (sg : http_signer) : ring_signs cy rk t k sg -> signs_with cy (scheme_of t) k sg.
Proof.
  assert (D8 : forall b, rk_pkcs8 rk t b = Some k -> sign_new_pkcs8 cy rk t b = Some sg -> signs_with cy (scheme_of t) k sg).
  { intros b H C. unfold sign_new_pkcs8 in C. rewrite H in C. injection C as <-. apply ring_sign_is. }
  assert (D1 : forall b, rk_rsa_der rk b = Some k -> sign_new_pkcs1 cy rk t b = Some sg -> signs_with cy (scheme_of t) k sg).
  { intros b H C. unfold sign_new_pkcs1 in C. rewrite H in C. injection C as <-. apply ring_sign_is. }
  intros [b H C|text label b F H C|b H C|text label b F H C]; try (destruct (load_private cy rk t text label b F) as [E8 E1]; rewrite ?E8, ?E1 in C); eauto.
Qed.
Lemma ring_verifies_is (cy : crypto) (t : key_type) (k : str) (vf : http_verifier) : ring_verifies cy t k vf -> verifies_by cy (scheme_of t) k vf.
Proof.
  assert (X : forall o, verifier_for cy t k o -> o = Some vf -> verifies_by cy (scheme_of t) k vf).
  { intros o (vf' & E & _ & V) E'. rewrite E in E'. now injection E' as <-. }
  intros [b oid S C|text label b oid F S C|C|text label F C]; revert C; apply X.
  - unfold verify_new_spki_der. rewrite (proj2 (spki_key_iff b k)) by eauto. apply verifier_for_ring.
  - exact (proj1 (load_spki cy t text label b oid k F S)).
  - apply verifier_for_ring.
  - exact (proj1 (load_pkcs1 cy t text label k F)).
Qed.
(** Signing with one scheme and verifying by one. *)
Lemma scheme_round (cy : crypto) (s : scheme) (sk pk : str) (sg : http_signer) (vf : http_verifier) (rnd : N) (msg : str) :
  key_pair cy s sk pk -> signs_with cy s sk sg -> verifies_by cy s pk vf -> vf_verify vf msg (sg_sign sg rnd msg) = true.
Proof. intros K S V. rewrite S. apply V. eexists. split; [reflexivity|apply K]. Qed.
Lemma scheme_other (cy : crypto) (s s' : scheme) (sk pk : str) (sg : http_signer) (vf : http_verifier) (rnd : N) (msg : str) :
  signs_with cy s sk sg -> verifies_by cy s' pk vf -> vf_verify vf msg (sg_sign sg rnd msg) = cy_verify cy s' pk msg (cy_sign cy s sk rnd msg).
Proof.
  intros S V. apply eq_iff_eq_true. rewrite S. split.
  - intro H. apply V in H. destruct H as (tag & E & H).
    assert (X : Some tag = Some (cy_sign cy s sk rnd msg)) by (rewrite <- (proj2 (decode_bits _ _) E); now apply decode_bits). injection X as ->. exact H.
  - intro H. apply V. now eexists.
Qed.
Section Between.
  Context (cy : crypto) (ok : openssl_keys) (rk : ring_keys) (sk pk : str).
  Lemma openssl_round (t : key_type) (sg : http_signer) (vf : http_verifier) (rnd : N) (msg : str) : key_pair cy (openssl_uses t) sk pk ->
    openssl_signs cy ok t sk sg -> openssl_verifies cy ok t pk vf -> vf_verify vf msg (sg_sign sg rnd msg) = true.
  Proof. intros K S V. apply openssl_signs_is in S. apply openssl_verifies_is in V. now apply (scheme_round cy (openssl_uses t) sk pk). Qed.
  Lemma ring_round (t : key_type) (sg : http_signer) (vf : http_verifier) (rnd : N) (msg : str) : key_pair cy (scheme_of t) sk pk ->
    ring_signs cy rk t sk sg -> ring_verifies cy t pk vf -> vf_verify vf msg (sg_sign sg rnd msg) = true.
  Proof. intros K S V. apply ring_signs_is in S. apply ring_verifies_is in V. now apply (scheme_round cy (scheme_of t) sk pk). Qed.
  Lemma both_libraries (t : key_type) (sg sg' : http_signer) (vf vf' : http_verifier) (rnd : N) (msg : str) : t = RsaSha256 \/ t = RsaSha512 ->
    key_pair cy (scheme_of t) sk pk ->
    openssl_signs cy ok t sk sg -> openssl_verifies cy ok t pk vf -> ring_signs cy rk t sk sg' -> ring_verifies cy t pk vf' ->
    vf_verify vf' msg (sg_sign sg rnd msg) = true /\ vf_verify vf msg (sg_sign sg' rnd msg) = true.
  Proof.
    intros T K S V S' V'. apply openssl_signs_is in S. apply openssl_verifies_is in V. apply ring_signs_is in S'. apply ring_verifies_is in V'.
    assert (E : openssl_uses t = scheme_of t) by (destruct T as [-> | ->]; reflexivity). rewrite E in *.
    split; now apply (scheme_round cy (scheme_of t) sk pk).
  Qed.
  Lemma between_pss (t : key_type) (sg sg' : http_signer) (vf vf' : http_verifier) (rnd : N) (msg : str) :
    schemes_differ cy (openssl_uses t) (scheme_of t) sk pk rnd msg ->
    openssl_signs cy ok t sk sg -> openssl_verifies cy ok t pk vf -> ring_signs cy rk t sk sg' -> ring_verifies cy t pk vf' ->
    vf_verify vf' msg (sg_sign sg rnd msg) = false /\ vf_verify vf msg (sg_sign sg' rnd msg) = false.
  Proof.
    intros [D D'] S V S' V'. apply openssl_signs_is in S. apply openssl_verifies_is in V. apply ring_signs_is in S'. apply ring_verifies_is in V'.
    split.
    - now rewrite (scheme_other cy (openssl_uses t) (scheme_of t) sk pk _ _ _ _ (proj2 S) V').
    - now rewrite (scheme_other cy (scheme_of t) (openssl_uses t) sk pk _ _ _ _ S' (proj2 V)).
  Qed.
End Between.
