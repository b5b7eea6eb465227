(** Witnesses and small corollaries for the properties of [sign]. *)
From Verif Require Export SignMore.

(** [sign], with a dummy result for a panic. *)
Definition sign_or {R} (cr : client_request_like R) (r : R) (c : signing_config) (env : sign_env) : R * result unit error :=
  match sign cr r c env with Done x => x | Panic => (r, Err ECanonicalize) end.

Lemma late_year (n : nat) (y m d : Z) : (2932896 < Z.of_nat n)%Z -> date_after n = (y, m, d) -> (9999 < y)%Z.
Proof.
  intros Hn E. pose proof (civil_day (Z.of_nat n)) as D. pose proof (civil_range (Z.of_nat n)) as B.
  rewrite civil_after, E in *. cbn [day_of] in D. destruct (Z.leb_spec m 2); lia.
Qed.
Lemma zpad_wide (z : Z) : (9999 < z)%Z -> zpad 4 z = dec_of_N (Z.to_N z).
Proof.
  intro H. unfold zpad. pose proof (val_of_dec_lt _ (dec_of_N_digits (Z.to_N z))) as L. rewrite dec_of_N_val in L.
  destruct (Nat.leb_spec 4 (List.length (dec_of_N (Z.to_N z)))) as [K|K].
  - replace (4 - List.length (dec_of_N (Z.to_N z)))%nat with O by lia. reflexivity.
  - exfalso. assert (X : (10 ^ N.of_nat (List.length (dec_of_N (Z.to_N z))) <= 10 ^ 3)%N) by (apply N.pow_le_mono_r; lia).
    change (10 ^ 3)%N with 1000%N in X. lia.
Qed.
Lemma fmt_is_late (secs : Z) : (253402300799 < secs)%Z -> late_date secs (fmt_http_date secs).
Proof.
  intro H. unfold late_date, fmt_http_date. cbv zeta.
  pose proof (Z_div_mod_eq_full secs 86400) as E. pose proof (Z_mod_lt secs 86400 ltac:(lia)) as B.
  assert (Dn : (2932896 < secs / 86400)%Z) by lia.
  set (tod := (secs mod 86400)%Z) in *. set (n := Z.to_nat (secs / 86400)).
  assert (En : (secs / 86400 = Z.of_nat n)%Z) by (subst n; lia). rewrite En in *. rewrite civil_after.
  destruct (date_after n) as [[y m] d] eqn:Ed.
  pose proof (late_year n y m d ltac:(lia) Ed) as Y. pose proof (civil_range (Z.of_nat n)) as R. rewrite civil_after, Ed in R.
  exists n, y, (dec_of_N (Z.to_N y)), m, d, (tod / 3600)%Z, (tod / 60 mod 60)%Z, (tod mod 60)%Z.
  split; [lia|]. split; [lia|]. split; [lia|]. split; [lia|]. split; [exact Ed|]. split; [exact Y|]. split; [now apply digits_iff|].
  rewrite weekday_name, (zpad2 d) by lia. rewrite (zpad2 (tod / 3600)) by lia. rewrite (zpad2 (tod / 60 mod 60)) by lia.
  rewrite (zpad2 (tod mod 60)) by lia. unfold fmt_year.
  replace ((0 <=? y)%Z && (y <=? 9999)%Z) with false by lia. replace (y <? 0)%Z with false by lia.
  rewrite zpad_wide by lia. reflexivity.
Qed.
Lemma late_not_http (secs a : Z) (t : str) : late_date secs t -> ~ http_date a t.
Proof.
  intros (n & y & ys & m & d & hh & mm & ss & _ & _ & _ & _ & D & Y & G & ->) H. apply http_date_len in H.
  pose proof (civil_range (Z.of_nat n)) as R. rewrite civil_after, D in R. apply digits_iff in G.
  rewrite !app_length, weekday_len, month_len in H by lia. cbn [List.length two] in H.
  pose proof (val_of_dec_lt _ (dec_of_N_digits (Z.to_N y))) as L. rewrite dec_of_N_val, <- G in L.
  assert (X : (10 ^ N.of_nat (List.length ys) <= 10 ^ 4)%N) by (apply N.pow_le_mono_r; cbn in H; lia).
  change (10 ^ 4)%N with 10000%N in X. lia.
Qed.
Section Client.
  Context {R : Type} (cr : client_request_like R) (L : client_laws cr).
  Lemma sign_times (r r' : R) (c : signing_config) (env : sign_env) :
    sys_clock_ok (se_sys env) -> sign cr r c env = Done (r', Ok tt) ->
    let now := seconds (se_sys env) in
    (forall t, created_at c now = Some t -> (t <= now)%Z) /\ (forall t, expires_at c now = Some t -> (now <= t)%Z)
    /\ exists items sp, rl_derive (cr_rl cr) r' (CHeader $"signature-input") = Done (Some ($"sig=" ++ sp))
         /\ inner_text items (stamp c now) sp.
  Proof.
    intros S H. apply (sign_ok_facts cr L r r' c env S) in H. cbv zeta in *.
    destruct H as (cs & base & sp & _ & N1 & N2 & _ & I & D & _).
    split; [|split; [|eauto]].
    - intros t E. destruct (Z_lt_dec (seconds (se_sys env)) t); [|lia]. exfalso. apply N1. exists t. auto.
    - intros t E. destruct (Z_lt_dec t (seconds (se_sys env))); [|lia]. exfalso. apply N2. exists t. auto.
  Qed.
  Lemma sign_time_errors (r r' : R) (c : signing_config) (env : sign_env) (res : result unit error) :
    sys_clock_ok (se_sys env) -> sign cr r c env = Done (r', res) ->
    let now := seconds (se_sys env) in
    (res = Err EInvalidSignatureCreationDate <-> exists t, created_at c now = Some t /\ (now < t)%Z)
    /\ (res = Err EInvalidSignatureExpiresDate <->
        ~ (exists t, created_at c now = Some t /\ (now < t)%Z) /\ exists t, expires_at c now = Some t /\ (t < now)%Z).
  Proof.
    intros S H. destruct (sign_errors cr L r r' c env res S H) as (A & B & _). split; [exact A|exact B].
  Qed.
  Lemma sign_http_date (r r' : R) (c : signing_config) (env : sign_env) (res : result unit error) :
    sc_add_date c = true -> rl_derive (cr_rl cr) r (CHeader $"date") = Done None ->
    sys_clock_ok (se_sys env) -> utc_clock_ok (se_utc env) -> (seconds (se_utc env) <= 253402300799)%Z ->
    sign cr r c env = Done (r', res) ->
    exists t, rl_derive (cr_rl cr) r' (CHeader $"date") = Done (Some t)
              /\ http_date (seconds (se_utc env)) t /\ plain t /\ List.length t = 29%nat.
  Proof.
    intros A D S U B H. eexists. split; [exact (sign_date cr L r r' c env res A D S U H)|].
    assert (X : http_date (seconds (se_utc env)) (fmt_http_date (seconds (se_utc env)))).
    { apply fmt_is_http_date. split; [|exact B]. unfold seconds. destruct U as [U _]. apply Z.div_pos; lia. }
    split; [exact X|]. split; [apply fmt_plain|exact (http_date_len _ _ X)].
  Qed.
  Lemma sign_late_date (r r' : R) (c : signing_config) (env : sign_env) (res : result unit error) :
    sc_add_date c = true -> rl_derive (cr_rl cr) r (CHeader $"date") = Done None ->
    sys_clock_ok (se_sys env) -> utc_clock_ok (se_utc env) -> (253402300799 < seconds (se_utc env))%Z ->
    sign cr r c env = Done (r', res) ->
    exists t, rl_derive (cr_rl cr) r' (CHeader $"date") = Done (Some t)
              /\ late_date (seconds (se_utc env)) t /\ forall a, ~ http_date a t.
  Proof.
    intros A D S U B H. eexists. split; [exact (sign_date cr L r r' c env res A D S U H)|].
    pose proof (fmt_is_late _ B) as X. split; [exact X|]. intro a. exact (late_not_http _ a _ X).
  Qed.
End Client.

Lemma m_safe : auto_safe mr_client m_req m_sconf m_senv /\ Forall component_rep (sc_components m_sconf)
  /\ stamp_printable m_sconf 1618884475
  /\ sign mr_client m_req (sc_set_created_at m_sconf (-1000000000000000)) m_senv = Panic
  /\ sign mr_client m_req (SigningConfig $"sig" (sc_signature m_sconf) sha256_digest [ch_lf] None [] true true true true CrOmit ExOmit) m_senv = Panic.
Proof.
  split; [|split; [|split; [|split; vm_compute; reflexivity]]].
  - split; [vm_compute; intuition discriminate|]. split; [intros _; vm_compute; intuition discriminate|]. split; [discriminate|].
    intros d E. apply plain_iff. revert E. vm_compute. intro E. injection E as <-. reflexivity.
  - do 5 (constructor; [apply component_repb_rep; vm_compute; reflexivity|]). constructor.
  - apply stamp_text. apply (@ex_intro _ _ (match ser_params (stamp m_sconf 1618884475) with Some t => t | None => [] end)).
    apply params_text_iff. vm_compute. reflexivity.
Qed.
Lemma nonce_panics : exists (n : str), Forall visible n /\ sign mr_client m_req (sc_set_nonce m_sconf n) m_senv = Panic.
Proof. exists $"a b". split; [apply visible_all; reflexivity|vm_compute; reflexivity]. Qed.
Lemma empty_nonce : exists (r' : mock),
  sign mr_client m_req (sc_set_nonce m_sconf []) m_senv = Done (r', Ok tt) /\ verify mr_server r' m_vconf m_venv = Panic.
Proof.
  exists (fst (sign_or mr_client m_req (sc_set_nonce m_sconf []) m_senv)). split; vm_compute; reflexivity.
Qed.
