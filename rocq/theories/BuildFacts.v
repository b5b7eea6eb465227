(** Lemmas about the construction of MockRequests. *)
From Verif Require Import StrFacts SpecFacts ReqFacts SignMore LineFacts MockFacts UrlFacts TargetFacts.
From Verif Require Export SpecBuild.

Lemma set_one_insert (m : header_map) (k v : str) : set_one m k v (hm_insert m k v).
Proof.
  split; [|intros n N; now apply hm_insert_other]. rewrite hm_insert_get_all. now rewrite str_eqb_refl.
Qed.
Lemma digits_legal (n : N) : legal_value (dec_of_N n).
Proof.
  apply Forall_forall. intros c I. left. pose proof (dec_of_N_digits n) as D. apply (forallb_In _ _ _ D) in I. unfold is_digit, in_range, code in I. lia.
Qed.
Lemma with_body_done (r : mock) (b : str) : mr_with_body r b
  = Done (MockReq (mr_version r) (mr_method r) (mr_url r) (mr_path r) (hm_insert (mr_headers r) $"content-length" (dec_of_N (N.of_nat (List.length b)))) (Some b)).
Proof.
  unfold mr_with_body. set (r1 := MockReq (mr_version r) (mr_method r) (mr_url r) (mr_path r) (mr_headers r) (Some b)).
  assert (E : mr_with_header r1 $"Content-Length" (dec_of_N (N.of_nat (List.length b))) = Done (mr_set_header r1 $"content-length" (dec_of_N (N.of_nat (List.length b))))).
  { apply with_header_iff. exists $"content-length". split; [apply spelled_iff; reflexivity|]. split; [apply digits_legal|reflexivity]. }
  rewrite E. reflexivity.
Qed.
Lemma with_body_spec (r : mock) (b : str) : exists r' l, mr_with_body r b = Done r' /\ digits l (N.of_nat (List.length b))
  /\ mr_body r' = Some b /\ set_one (mr_headers r) $"content-length" l (mr_headers r')
  /\ mr_version r' = mr_version r /\ mr_method r' = mr_method r /\ mr_url r' = mr_url r /\ mr_path r' = mr_path r.
Proof.
  rewrite with_body_done. eexists _, (dec_of_N (N.of_nat (List.length b))). split; [reflexivity|]. split; [now apply digits_iff|].
  split; [reflexivity|]. split; [apply set_one_insert|]. do 3 (split; [reflexivity|]). reflexivity.
Qed.

(** ** Histories *)
Definition keeps (r r' : mock) : Prop := mr_version r' = mr_version r /\ mr_method r' = mr_method r /\ mr_url r' = mr_url r /\ mr_path r' = mr_path r.
Lemma keeps_trans (a b c : mock) : keeps a b -> keeps b c -> keeps a c.
Proof. intros (A & B & C & D) (A' & B' & C' & D'). unfold keeps. rewrite A', B', C', D'. auto. Qed.
Lemma built_keeps (r r' : mock) (cs : list call) : built r cs r' -> keeps r r'.
Proof.
  induction 1 as [|r n v r1 cs r' E B IH|r b r1 cs r' E B IH]; [unfold keeps; auto| |]; refine (keeps_trans _ _ _ _ IH).
  - apply with_header_iff in E. destruct E as (h & _ & _ & ->). unfold keeps; auto.
  - rewrite with_body_done in E. injection E as <-. unfold keeps; auto.
Qed.
Lemma built_body_is (r r' : mock) (cs : list call) : built r cs r' -> final_body (mr_body r) cs (mr_body r').
Proof.
  induction 1 as [r|r n v r1 cs r' E B IH|r b r1 cs r' E B IH].
  - apply final_start. intros b [].
  - apply with_header_iff in E. destruct E as (h & _ & _ & ->). cbn [mr_set_header mr_body] in IH. destruct IH as [before b after -> N|N].
    + now apply (final_given _ _ (WithHeader n v :: before)) with (after := after).
    + apply final_start. intros b [X|X]; [discriminate X|now apply (N b)].
  - rewrite with_body_done in E. injection E as <-. cbn [mr_body] in IH. destruct IH as [before b' after -> N|N].
    + now apply (final_given _ _ (WithBody b :: before)) with (after := after).
    + now apply (final_given _ _ []) with (after := cs).
Qed.
(** A history as header writes. *)
Lemma built_wrote (r r' : mock) (cs : list call) : built r cs r' -> forall ws, writes cs ws ->
  forall n h, spelled n h ->
    (not_written ws n -> hm_get_all (mr_headers r') h = hm_get_all (mr_headers r) h)
    /\ forall v, last_written ws n v -> hm_get_all (mr_headers r') h = [v].
Proof.
  assert (Step : forall (m m1 m2 : header_map) (n0 h0 v0 : str) (ws : list (str * str)) (n h : str), spelled n0 h0 -> spelled n h -> m1 = hm_insert m h0 v0 ->
    (not_written ws n -> hm_get_all m2 h = hm_get_all m1 h) -> (forall v, last_written ws n v -> hm_get_all m2 h = [v]) ->
    (not_written ((n0, v0) :: ws) n -> hm_get_all m2 h = hm_get_all m h) /\ forall v, last_written ((n0, v0) :: ws) n v -> hm_get_all m2 h = [v]).
  { intros m m1 m2 n0 h0 v0 ws n h S0 S -> I1 I2. apply spelled_lower in S0. apply spelled_lower in S.
    assert (Same : same_name n0 n <-> h0 = h) by (rewrite same_name_iff; subst; reflexivity). split.
    - intro N. inversion N as [|? ? N1 N2]; subst x l. cbn [fst] in N1. rewrite (I1 N2). apply hm_insert_other. intro E. apply N1, Same. congruence.
    - intros v (before & n1 & after & E & E1 & A). destruct before as [|[n2 v2] before]; cbn [app] in E.
      + injection E as <- <- <-. rewrite (I1 A). apply Same in E1. subst h0. rewrite E1. apply set_one_insert.
      + injection E as _ _ ->. apply I2. now exists before, n1, after. }
  induction 1 as [r|r n0 v0 r1 cs r' E B IH|r b r1 cs r' E B IH]; intros ws W n h S.
  - inversion W; subst. split; [reflexivity|]. intros v (before & n1 & after & E & _). destruct before; discriminate E.
  - inversion W as [|? ? ? ws' W'|]; subst. apply with_header_iff in E. destruct E as (h0 & S0 & _ & ->).
    destruct (IH ws' W' n h S) as [I1 I2]. now apply (Step (mr_headers r) (mr_headers (mr_set_header r h0 v0)) (mr_headers r') n0 h0 v0).
  - inversion W as [| |? l ? ws' D W']; subst. apply digits_iff in D. subst l. rewrite with_body_done in E. injection E as <-.
    destruct (IH ws' W' n h S) as [I1 I2]. refine (Step (mr_headers r) _ (mr_headers r') _ $"content-length" _ _ n h _ S eq_refl I1 I2). apply spelled_iff. reflexivity.
Qed.
Lemma built_spec (r r' : mock) (cs : list call) (ws : list (str * str)) : built r cs r' -> writes cs ws ->
  (mr_version r' = mr_version r /\ mr_method r' = mr_method r /\ mr_url r' = mr_url r /\ mr_path r' = mr_path r)
  /\ final_body (mr_body r) cs (mr_body r')
  /\ forall n h, spelled n h ->
    (forall v, last_written ws n v -> hm_get_all (mr_headers r') h = [v])
    /\ (not_written ws n -> hm_get_all (mr_headers r') h = hm_get_all (mr_headers r) h).
Proof.
  intros B W. split; [now apply (built_keeps r r' cs)|]. split; [now apply built_body_is|]. intros n h S. destruct (built_wrote r r' cs B ws W n h S). auto.
Qed.
Lemma writes_exist (cs : list call) : exists ws, writes cs ws /\ forall ws', writes cs ws' -> ws' = ws.
Proof.
  induction cs as [|c cs (ws & W & U)]; [exists []; split; [constructor|now inversion 1]|]. destruct c as [n v|b].
  - exists ((n, v) :: ws). split; [now constructor|]. inversion 1; subst. f_equal. now apply U.
  - exists (($"Content-Length", dec_of_N (N.of_nat (List.length b))) :: ws). split; [constructor; [now apply digits_iff|exact W]|].
    intros ws' X. inversion X as [| |? l ? ws2 D W2]; subst. apply digits_iff in D. subst l. f_equal. now apply U.
Qed.

(** ** new *)
Lemma new_iff (up : url_parser) (v : version) (m path : str) (hs : header_map) (r : mock) : mr_new up v m path hs = Done r <->
  exists u, up path = Ok u /\ (forall h, u_host u = Some h -> legal_value h)
    /\ r = MockReq v m u path (match u_host u with Some h => hm_insert hs $"host" h | None => hs end) None.
Proof.
  unfold mr_new. split.
  - destruct (up path) as [u|] eqn:E; [|discriminate]. destruct (u_host u) as [h|] eqn:Hu; intro X.
    + apply with_header_iff in X. destruct X as (k & S & L & ->). assert (k = $"host") as -> by (now apply spelled_lower in S). exists u. rewrite Hu.
      split; [reflexivity|]. split; [now intros ? [= <-]|reflexivity].
    + injection X as <-. exists u. rewrite Hu. split; [reflexivity|]. split; [discriminate|reflexivity].
  - intros (u & -> & L & ->). destruct (u_host u) as [h|]; [|reflexivity]. apply with_header_iff. exists $"host".
    split; [apply spelled_iff; reflexivity|]. split; [now apply L|reflexivity].
Qed.
Lemma new_spec (up : url_parser) (v : version) (m path : str) (hs : header_map) (r : mock) : mr_new up v m path hs = Done r ->
  exists u, up path = Ok u /\ mr_version r = v /\ mr_method r = m /\ mr_url r = u /\ mr_path r = path /\ mr_body r = None
    /\ match u_host u with Some h => set_one hs $"host" h (mr_headers r) | None => mr_headers r = hs end.
Proof.
  intro E. apply new_iff in E. destruct E as (u & Hu & _ & ->). exists u. split; [exact Hu|]. do 5 (split; [reflexivity|]). cbn [mr_headers].
  destruct (u_host u) as [h|]; [apply set_one_insert|reflexivity].
Qed.
Lemma new_panics (up : url_parser) (v : version) (m path : str) (hs : header_map) : mr_new up v m path hs = Panic <->
  forall u, up path = Ok u -> exists h, u_host u = Some h /\ ~ legal_value h.
Proof.
  destruct (mr_new up v m path hs) as [r|] eqn:E.
  - split; [discriminate|]. intro N. apply new_iff in E. destruct E as (u & Hu & L & _). destruct (N u Hu) as (h & Hh & X). exfalso. apply X. now apply L.
  - split; [|reflexivity]. intros _ u Hu. unfold mr_new in E. rewrite Hu in E. destruct (u_host u) as [h|]; [|discriminate]. exists h. split; [reflexivity|].
    apply with_header_panic in E. intro L. apply E. split; [|exact L]. apply (proj1 (proj2 (spelled_iff $"Host" $"host") eq_refl)).
Qed.

Lemma visible_legal (h : str) : Forall (fun c => (33 <= N_of_ascii c <= 126)%N) h -> legal_value h.
Proof. apply Forall_impl. intros c H. left. lia. Qed.
Lemma visible_plain (h : str) : Forall (fun c => (33 <= N_of_ascii c <= 126)%N) h -> plain_value h.
Proof.
  intro F. split; [revert F; apply Forall_impl; intros c H; left; unfold visible; lia|].
  assert (B : forall c, In c h -> ~ blank c). { intros c I. rewrite Forall_forall in F. apply F in I. intros [-> | ->]; cbn in I; lia. }
  split; intros c x ->; apply B; [now left|]. apply in_or_app. right. now left.
Qed.
Lemma special_host_text (hp : host_parser) (s : str) (u : url) : host_laws hp -> special_url hp s u ->
  exists h, u_host u = Some h /\ Forall (fun c => (33 <= N_of_ascii c <= 126)%N) h.
Proof.
  intros L (t & sch & sl & auth & path & q & f & _ & _ & _ & _ & _ & _ & _ & A & _).
  assert (X : exists h0, hp h0 = u_host u /\ u_host u <> None) by (destruct A; eauto). destruct X as (h0 & E & N).
  destruct (u_host u) as [h|]; [|congruence]. exists h. split; [reflexivity|]. destruct (hl_text hp L h0 h E) as [_ F]. revert F. apply Forall_impl. tauto.
Qed.
Lemma new_special (hp : host_parser) (sp : scheme_parser) (v : version) (m path : str) (hs : header_map) (u : url) : host_laws hp -> scheme_laws sp -> special_url hp path u ->
  exists r h, mr_new (url_parse hp sp) v m path hs = Done r /\ mr_url r = u /\ u_host u = Some h /\ set_one hs $"host" h (mr_headers r).
Proof.
  intros L S U. destruct (special_host_text hp path u L U) as (h & Hh & F). apply (parser_spec hp sp path u S) in U. destruct U as [U _].
  exists (MockReq v m u path (hm_insert hs $"host" h) None), h. split; [|split; [reflexivity|split; [exact Hh|apply set_one_insert]]].
  apply new_iff. exists u. rewrite Hh. split; [exact U|]. split; [|reflexivity]. intros h' [= <-]. now apply visible_legal.
Qed.

(** ** Written and read back *)
Definition headers_ok (hs : header_map) : Prop := NoDup (map fst hs) /\ Forall (fun h => header_name (fst h) /\ plain_value (snd h)) hs.
Lemma headers_ok_insert (hs : header_map) (k v : str) : headers_ok hs -> header_name k -> plain_value v -> headers_ok (hm_insert hs k v).
Proof.
  intros [D F] K V. split; [now apply hm_insert_nodup|]. apply Forall_forall. intros x I. apply hm_insert_in in I. destruct I as [-> | I]; [now split|].
  rewrite Forall_forall in F. now apply F.
Qed.
Lemma spelled_name (n h : str) : spelled n h -> header_name h.
Proof.
  intro S. apply spelled_iff in S. unfold hname_parse in S.
  destruct (negb match n with [] => true | _ :: _ => false end && (N.of_nat (List.length n) <=? 65535)%N && forallb is_tchar n) eqn:E; [|discriminate]. injection S as <-.
  apply andb_prop in E. destruct E as [E T]. apply andb_prop in E. destruct E as [N L]. split; [now destruct n|]. split; [rewrite map_length; lia|].
  apply Forall_forall. intros c I. apply in_map_iff in I. destruct I as (d & <- & I). apply (forallb_In _ _ _ T) in I.
  assert (Y : forallb (fun x => implb (is_tchar x) (is_tchar (to_lower x) && negb ((65 <=? N_of_ascii (to_lower x))%N && (N_of_ascii (to_lower x) <=? 90)%N))) all_bytes = true)
    by (vm_compute; reflexivity).
  apply byte_all with (c := d) in Y. cbv beta in Y. rewrite I in Y. cbn [implb] in Y. apply andb_prop in Y. destruct Y as [Y1 Y2].
  split; [now apply tchar_iff|]. intro R. lia.
Qed.
Lemma digits_plain (n : N) : plain_value (dec_of_N n).
Proof.
  apply visible_plain, Forall_forall. intros c I. pose proof (dec_of_N_digits n) as D. apply (forallb_In _ _ _ D) in I. unfold is_digit, in_range, code in I. lia.
Qed.
Lemma built_headers_ok (r r' : mock) (cs : list call) : built r cs r' -> Forall plain_call cs -> headers_ok (mr_headers r) -> headers_ok (mr_headers r').
Proof.
  induction 1 as [r|r n v r1 cs r' E B IH|r b r1 cs r' E B IH]; intros P H; [exact H| |]; inversion P as [|? ? P1 P2]; subst; apply (IH P2).
  - apply with_header_iff in E. destruct E as (h & S & _ & ->). apply headers_ok_insert; [exact H|now apply (spelled_name n)|exact P1].
  - rewrite with_body_done in E. injection E as <-. apply headers_ok_insert; [exact H| |apply digits_plain]. apply (spelled_name $"Content-Length"), spelled_iff. reflexivity.
Qed.
Lemma built_write_read (trace : bool) (up : url_parser) (v : version) (m path : str) (hs : header_map) (r0 r : mock) (cs : list call) :
  mr_new up v m path hs = Done r0 -> built r0 cs r ->
  m <> [] -> Forall tchar m -> path <> [] -> utf8_text path -> Forall (fun c => ~ ascii_blank c) path ->
  NoDup (map fst hs) -> Forall (fun h => header_name (fst h) /\ plain_value (snd h)) hs ->
  (forall u h, up path = Ok u -> u_host u = Some h -> plain_value h) -> Forall plain_call cs -> loggable trace r ->
  exists t, write r = Some t /\ from_reader trace up t = Done (Some (as_version HTTP_11 r)).
Proof.
  intros N B M1 M2 P1 P2 P3 D F U C L. destruct (built_keeps r0 r cs B) as (_ & K2 & K3 & K4). pose proof (built_headers_ok r0 r cs B C) as HH.
  apply new_iff in N. destruct N as (u & Hu & _ & ->). cbn [mr_headers mr_method mr_url mr_path] in *.
  assert (H : headers_ok (mr_headers r)).
  { apply HH. destruct (u_host u) as [h|] eqn:E; [|now split]. apply headers_ok_insert; [now split| |now apply (U u)]. apply (spelled_name $"Host"), spelled_iff. reflexivity. }
  assert (T : text_request r). { unfold text_request. rewrite K2, K4. destruct H as [H1 H2]. auto. }
  exists (request_text r). assert (W : write r = Some (request_text r)) by (apply write_iff; split; [now apply text_shown|reflexivity]).
  split; [exact W|]. apply (write_read trace up r); auto. left. now rewrite K3, K4.
Qed.
Lemma built_write_read_http (trace : bool) (hp : host_parser) (sp : scheme_parser) (v : version) (m path : str) (u : url) (hs : header_map) (r0 r : mock) (cs : list call) :
  host_laws hp -> scheme_laws sp -> special_url hp path u -> mr_new (url_parse hp sp) v m path hs = Done r0 -> built r0 cs r ->
  m <> [] -> Forall tchar m -> path <> [] -> utf8_text path -> Forall (fun c => ~ ascii_blank c) path ->
  NoDup (map fst hs) -> Forall (fun h => header_name (fst h) /\ plain_value (snd h)) hs -> Forall plain_call cs -> loggable trace r ->
  exists t, write r = Some t /\ from_reader trace (url_parse hp sp) t = Done (Some (as_version HTTP_11 r)).
Proof.
  intros L S U N B M1 M2 P1 P2 P3 D F C Lo. apply (built_write_read trace (url_parse hp sp) v m path hs r0 r cs); auto.
  intros u' h E Hh. destruct (special_host_text hp path u L U) as (h' & Hh' & V). apply (parser_spec hp sp path u S) in U. destruct U as [U _].
  assert (h = h') as -> by congruence. now apply visible_plain.
Qed.
