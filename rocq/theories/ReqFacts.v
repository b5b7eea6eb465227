(** Header maps and the request implementations: the laws of the traits. *)
From Verif Require Export SpecSign CanonFacts Reqwest Mock.

(** ** Header maps *)
Lemma hm_remove_get (m : header_map) (n k : str) :
  hm_get (hm_remove m n) k = if str_eqb n k then None else hm_get m k.
Proof.
  induction m as [|[a v] m IH]; cbn [hm_remove hm_get filter fst]; [now destruct (str_eqb n k)|].
  destruct (str_eqb a n) eqn:E; cbn [negb hm_get].
  - apply str_eqb_eq in E. subst a. fold (hm_remove m n). rewrite IH. destruct (str_eqb n k); reflexivity.
  - fold (hm_remove m n). rewrite IH. destruct (str_eqb a k) eqn:F; [|reflexivity].
    apply str_eqb_eq in F. subst k. rewrite str_eqb_sym, E. reflexivity.
Qed.
Lemma hm_insert_get (m : header_map) (n v k : str) :
  hm_get (hm_insert m n v) k = if str_eqb n k then Some v else hm_get m k.
Proof.
  induction m as [|[a w] m IH]; cbn [hm_insert hm_get]; [reflexivity|].
  destruct (str_eqb a n) eqn:E; cbn [hm_get].
  - apply str_eqb_eq in E. subst a. rewrite hm_remove_get. destruct (str_eqb n k); reflexivity.
  - rewrite IH. destruct (str_eqb a k) eqn:F; [|reflexivity].
    apply str_eqb_eq in F. subst k. rewrite str_eqb_sym, E. reflexivity.
Qed.
Lemma hm_get_all_nil (m : header_map) (k : str) : hm_get_all m k = [] <-> hm_get m k = None.
Proof.
  unfold hm_get_all. induction m as [|[a w] m IH]; cbn [filter hm_get fst]; [split; reflexivity|].
  destruct (str_eqb a k); cbn [map]; [split; discriminate|exact IH].
Qed.
Lemma hm_remove_get_all (m : header_map) (n k : str) :
  hm_get_all (hm_remove m n) k = if str_eqb n k then [] else hm_get_all m k.
Proof.
  unfold hm_get_all. induction m as [|[a v] m IH]; cbn [hm_remove filter fst]; [now destruct (str_eqb n k)|].
  destruct (str_eqb a n) eqn:E; cbn [negb].
  - apply str_eqb_eq in E. subst a. fold (hm_remove m n). rewrite IH. destruct (str_eqb n k); reflexivity.
  - fold (hm_remove m n). cbn [filter fst]. destruct (str_eqb a k) eqn:F; cbn [map]; rewrite IH; [|reflexivity].
    apply str_eqb_eq in F. subst k. rewrite str_eqb_sym, E. reflexivity.
Qed.
Lemma hm_insert_get_all (m : header_map) (n v k : str) :
  hm_get_all (hm_insert m n v) k = if str_eqb n k then [v] else hm_get_all m k.
Proof.
  induction m as [|[a w] m IH].
  - cbn. destruct (str_eqb n k); reflexivity.
  - cbn [hm_insert]. destruct (str_eqb a n) eqn:E.
    + apply str_eqb_eq in E. subst a. pose proof (hm_remove_get_all m n k) as R. unfold hm_get_all in *. cbn [filter fst].
      destruct (str_eqb n k); cbn [map]; rewrite R; reflexivity.
    + unfold hm_get_all in *. cbn [filter fst]. destruct (str_eqb a k) eqn:F; cbn [map]; rewrite IH.
      * apply str_eqb_eq in F. subst k. rewrite str_eqb_sym, E. reflexivity.
      * reflexivity.
Qed.

(** ** Deriving from the request line *)
Lemma dc_derive_done (d : derived) (n : str) (host : option str) (m : str) (u : url) :
  it_bare (dc_item d) = BString n -> exists o, dc_derive d host m u = Done o.
Proof. intro H. unfold dc_derive, dc_name. rewrite H. cbn [as_str unwrap obind]. eauto. Qed.
Lemma dc_derive_panic (d : derived) (host : option str) (m : str) (u : url) :
  dc_derive d host m u = Panic <-> forall n, it_bare (dc_item d) <> BString n.
Proof.
  unfold dc_derive, dc_name. destruct (it_bare (dc_item d)); cbn [as_str unwrap obind]; split; try discriminate; try reflexivity.
  intro H. exfalso. exact (H s eq_refl).
Qed.
Lemma same_params_get (p q : params) (k : str) : same_params p q ->
  match imap_get p k, imap_get q k with
  | Some a, Some b => same_bare a b
  | None, None => True
  | _, _ => False
  end.
Proof.
  induction 1 as [|[k1 v1] [k2 v2] p q [H1 H2] _ IH]; [exact I|]. cbn [fst snd] in *. subst k2. cbn [imap_get].
  destruct (str_eqb k1 k); [exact H2|exact IH].
Qed.
Lemma same_bare_str (a b : bare) : same_bare a b -> as_str a = as_str b.
Proof. destruct a, b; cbn; try contradiction; congruence. Qed.
Lemma dc_param_same (d e : derived) (k : str) : same_item (dc_item d) (dc_item e) -> dc_param d k = dc_param e k.
Proof.
  intros [_ H]. unfold dc_param. pose proof (same_params_get _ _ k H) as G.
  destruct (imap_get (it_params (dc_item d)) k), (imap_get (it_params (dc_item e)) k); try contradiction; [|reflexivity].
  now apply same_bare_str.
Qed.
Lemma dc_derive_same (d e : derived) (host : option str) (m : str) (u : url) :
  same_item (dc_item d) (dc_item e) -> dc_derive d host m u = dc_derive e host m u.
Proof.
  intro H. unfold dc_derive, dc_name. rewrite (same_bare_str _ _ (proj1 H)).
  destruct (as_str (it_bare (dc_item e))) as [n|]; cbn [unwrap obind]; [|reflexivity].
  unfold derive_query_params. rewrite (dc_param_same d e _ H). reflexivity.
Qed.

(** ** Laws *)
Lemma plain_iff (v : str) : plain v <-> hvalue_visible v = true.
Proof.
  unfold plain, hvalue_visible. apply forall_iff. intro c. rewrite orb_true_iff. unfold visible, is_visible, in_range. fold (code c).
  assert (E : c = "009"%char <-> (code c =? 9)%N = true).
  { rewrite N.eqb_eq. split; [intros ->; reflexivity|]. intro H. apply code_inj. exact H. }
  rewrite E. lia.
Qed.
Lemma legal_iff (v : str) : legal_value v <-> hvalue_ok v = true.
Proof.
  unfold legal_value, hvalue_ok. apply forall_iff. intro c. unfold hvalue_byte. rewrite orb_true_iff. fold (code c).
  assert (E : c = "009"%char <-> (code c =? 9)%N = true).
  { rewrite N.eqb_eq. split; [intros ->; reflexivity|]. intro H. apply code_inj. exact H. }
  rewrite E. lia.
Qed.
Lemma to_str_visible (v : str) : hvalue_visible v = true -> hvalue_to_str v = Some v.
Proof. intro H. unfold hvalue_to_str. now rewrite H. Qed.

Lemma rq_total (r : rq) : total_request rq_rl r.
Proof. split; [intro h; cbn; eauto|]. intros d n H. cbn [rq_rl rl_derive rq_derive]. eapply dc_derive_done. exact H. Qed.
Lemma rq_same (r : rq) (a b : component) : same_component a b -> rq_derive r a = rq_derive r b.
Proof.
  destruct a as [d|h], b as [e|k]; cbn [same_component rq_derive]; try contradiction.
  - apply dc_derive_same. - now intros ->.
Qed.
Lemma rq_set (r : rq) (h v : str) : plain v -> rq_derive (rq_set_header r h v) (CHeader h) = Done (Some v).
Proof. intro H. apply plain_iff in H. cbn. rewrite hm_insert_get, str_eqb_refl. cbn. now rewrite to_str_visible. Qed.
Lemma rq_set_other (r : rq) (h v : str) (q : component) : q <> CHeader h -> rq_derive (rq_set_header r h v) q = rq_derive r q.
Proof.
  intro N. destruct q as [d|k]; [reflexivity|]. cbn. rewrite hm_insert_get.
  replace (str_eqb h k) with false; [reflexivity|]. symmetry. apply str_eqb_neq. congruence.
Qed.
Lemma rq_async_laws : client_laws rq_async.
Proof.
  constructor; try reflexivity; [intros; cbn; unfold rq_has_component; now destruct (rq_derive r q) as [[]|]|..].
  - exact rq_total. - exact rq_same. - exact rq_set. - exact rq_set_other.
Qed.
Lemma rq_blocking_laws : client_laws rq_blocking.
Proof.
  constructor; try reflexivity; [intros; cbn; unfold rq_has_component; now destruct (rq_derive r q) as [[]|]|..].
  - exact rq_total. - exact rq_same. - exact rq_set. - exact rq_set_other.
  - intros [m u hs [| b|[b|]]] d [x|h]; reflexivity.
  - intros [m u hs [| b|[b|]]] h v d; reflexivity.
Qed.
Lemma mr_total (r : mock) : total_request mr_rl r.
Proof. split; [intro h; cbn; eauto|]. intros d n H. cbn [mr_rl rl_derive mr_derive]. eapply dc_derive_done. exact H. Qed.
Lemma mr_same (r : mock) (a b : component) : same_component a b -> mr_derive r a = mr_derive r b.
Proof.
  destruct a as [d|h], b as [e|k]; cbn [same_component mr_derive]; try contradiction.
  - apply dc_derive_same. - now intros ->.
Qed.
Lemma mr_set (r : mock) (h v : str) : plain v -> mr_derive (mr_set_header r h v) (CHeader h) = Done (Some v).
Proof. intro H. apply plain_iff in H. cbn. rewrite hm_insert_get, str_eqb_refl. cbn. now rewrite to_str_visible. Qed.
Lemma mr_set_other (r : mock) (h v : str) (q : component) : q <> CHeader h -> mr_derive (mr_set_header r h v) q = mr_derive r q.
Proof.
  intro N. destruct q as [d|k]; [reflexivity|]. cbn. rewrite hm_insert_get.
  replace (str_eqb h k) with false; [reflexivity|]. symmetry. apply str_eqb_neq. congruence.
Qed.
Lemma mr_client_laws : client_laws mr_client.
Proof.
  constructor; try reflexivity; [intros; cbn; unfold mr_has_component; now destruct (mr_derive r q) as [[]|]|..].
  - exact mr_total. - exact mr_same. - exact mr_set. - exact mr_set_other.
Qed.
Lemma mr_server_laws : server_laws mr_server.
Proof. constructor; [exact mr_total|exact mr_same]. Qed.
