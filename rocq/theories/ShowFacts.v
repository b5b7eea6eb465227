(** Facts for C102. *)
From Verif Require Import SpecShow CallFacts PipeFacts RunFacts OptFacts GrowFacts StrFacts SignFacts RoundTrip FlowFacts SpecSign ManualFacts TrustFacts CutFacts.

Definition esc (k : str) : str := List.concat (map escaped k).
Lemma esc_cons (d : ascii) (k : str) : esc (d :: k) = escaped d ++ esc k.
Proof. reflexivity. Qed.
Lemma escaped_cases (d : ascii) : escaped d = ["\"%char; d] \/ escaped d = [d] /\ d <> ch_quote.
Proof.
  unfold escaped. destruct (Ascii.eqb d """") eqn:E; [now left|]. destruct (Ascii.eqb d "\") eqn:F; [now left|]. right. split; [reflexivity|].
  intros ->. discriminate E.
Qed.
Lemma esc_head (k q : str) : esc k <> ch_quote :: q.
Proof. destruct k as [|d k]; [discriminate|]. rewrite esc_cons. destruct (escaped_cases d) as [E|[E N]]; rewrite E; intro H; [discriminate H|]. injection H as -> _. now apply N. Qed.
Lemma esc_quote (k p q : str) (c : ascii) : esc k = p ++ c :: ch_quote :: q -> c = "\"%char.
Proof.
  revert p. induction k as [|d k IH]; intros p H; [destruct p; discriminate H|]. rewrite esc_cons in H. destruct (escaped_cases d) as [E|[E N]]; rewrite E in H.
  - destruct p as [|x [|y p]]; cbn [app] in H.
    + now injection H.
    + injection H as _ _ H. now apply esc_head in H.
    + injection H as _ _ H. now apply (IH p).
  - destruct p as [|x p]; cbn [app] in H.
    + injection H as _ H. now apply esc_head in H.
    + injection H as _ H. now apply (IH p).
Qed.
Lemma split_two {A} (a b c d : list A) : a ++ b = c ++ d -> exists l, a = c ++ l /\ d = l ++ b \/ c = a ++ l /\ b = l ++ d.
Proof.
  revert c. induction a as [|x a IH]; intros c H.
  - exists c. right. split; [reflexivity|exact H].
  - destruct c as [|y c].
    + exists (x :: a). left. split; [reflexivity|now symmetry].
    + cbn [app] in H. injection H as -> H. destruct (IH c H) as (l & [[-> ->]|[-> ->]]); exists l; [left|right]; split; reflexivity.
Qed.
(** The last quoted value is where it seems to be. *)
Lemma last_value (x y u k : str) : ~ In ch_quote u ->
  x ++ ["="%char; ch_quote] ++ u ++ [ch_quote] = y ++ ["="%char; ch_quote] ++ esc k ++ [ch_quote] -> x = y.
Proof.
  intros N H. rewrite !app_assoc in H. apply app_inj_tail in H. destruct H as [H _]. apply split_two in H.
  destruct H as (l & [[E F]|[E F]]).
  - destruct l as [|e l _] using rev_ind.
    + rewrite app_nil_r in E. now apply app_inv_tail in E.
    + exfalso. rewrite app_assoc in E. change ["="%char; ch_quote] with (["="%char] ++ [ch_quote]) in E. rewrite !app_assoc in E.
      apply app_inj_tail in E. destruct E as [E <-]. destruct l as [|e l _] using rev_ind.
      * rewrite app_nil_r in E. apply app_inj_tail in E. destruct E as [_ E]. discriminate E.
      * rewrite app_assoc in E. apply app_inj_tail in E. destruct E as [_ <-]. rewrite <- !app_assoc in F. cbn [app] in F.
        apply esc_quote in F. discriminate F.
  - destruct l as [|e l _] using rev_ind.
    + rewrite app_nil_r in E. apply app_inv_tail in E. now symmetry.
    + exfalso. change ["="%char; ch_quote] with (["="%char] ++ [ch_quote]) in E. rewrite !app_assoc in E. apply app_inj_tail in E. destruct E as [_ <-].
      apply N. rewrite F. apply in_or_app. left. apply in_or_app. right. now left.
Qed.

Lemma one_param (k s t : str) : params_text [(k, BString s)] t -> t = [";"%char] ++ k ++ ["="%char; ch_quote] ++ esc s ++ [ch_quote].
Proof.
  intro H. inversion H as [| |? ? ? kt vt pt Nt K V P]; subst. inversion P; subst. destruct K as (_ & _ & ->). cbn in V. destruct V as [_ ->]. now rewrite app_nil_r.
Qed.
Lemma lines_end (l : list str) (x : str) : lines (l ++ [x]) = List.concat (map (fun l => l ++ [ch_lf]) l) ++ x.
Proof.
  induction l as [|a l IH]; [reflexivity|]. cbn [map List.concat]. rewrite <- !app_assoc, <- IH. cbn [app lines].
  destruct (l ++ [x]) eqn:E; [now destruct l|reflexivity].
Qed.
Lemma base_end (f : component -> outcome (option str)) (cs : list component) (p : list (str * bare)) (k s m : str) :
  signature_base f cs (p ++ [(k, BString s)]) m -> exists x, m = x ++ [";"%char] ++ k ++ ["="%char; ch_quote] ++ esc s ++ [ch_quote].
Proof.
  intros (ids & vals & sp & _ & _ & (its & pt & _ & P & ->) & ->). apply params_app in P. destruct P as (a & b & _ & B & ->). apply one_param in B. subst b.
  rewrite lines_end. eexists. rewrite !app_assoc. reflexivity.
Qed.
Lemma known_quotes (a : str) : In a known_names -> ~ In ch_quote (esc a).
Proof. intro I. cbn [known_names In] in I. repeat (destruct I as [<-|I]; [vm_compute; intuition discriminate|]). destruct I. Qed.

Lemma stamp_params (w : world) (o : opt) (c : signing_config) (now : Z) : sign_opts w o (Ok c) ->
  exists a n t oc, op_algorithm o = Some a /\ loads a t /\ announced a n /\ given o oc /\ sc_components c = or_else [] oc /\ stamp c now = params_signed o n.
Proof.
  intro So. inversion So as [a t pem key oc A L Kf Ks G E| | | | | | |]. subst c.
  assert (N : exists n, announced a n).
  { destruct (str_eqb a $"rsa-pss-sha256") eqn:Q.
    - apply str_eqb_eq in Q. exists $"rsa-pss-sha512". right. now split.
    - exists a. left. split; [|reflexivity]. intros ->. discriminate Q. }
  destruct N as [n N]. exists a, n, t, oc. split; [exact A|]. split; [exact L|]. split; [exact N|]. split; [exact G|]. split; [reflexivity|].
  destruct (sign_new_inv _ _ _ _ _ Ks) as [kb ->]. rewrite (loads_announced a n t L N).
  unfold stamp, params_signed, created_at, expires_at. cbn [sc_signature sc_created sc_expires sc_key_id sc_nonce opt_param].
  rewrite app_nil_r. destruct (op_created o), (op_expires o); reflexivity.
Qed.
Lemma printed_base (w : world) (o : opt) (stdin : str) (se : sign_env) (ve : verify_env) (m : str) :
  op_mode o = MCanonicalize -> run w o stdin se ve = Done (Ok m) -> exists r a oc, run_request w o stdin r /\ op_algorithm o = Some a /\ In a known_names
    /\ given o oc /\ signature_base (mr_derive r) (or_else [] oc) (params_printed o a) m.
Proof.
  intros M R. apply (run_canonicalize w o stdin se ve _ M) in R. inversion R as [| | |r cc b RR C B|]; subst. inversion C as [a oc A I G E| | |]; subst cc.
  exists r, a, oc. repeat (split; [assumption|]). exact B.
Qed.

Lemma never_signed (w w' : world) (o : opt) (stdin : str) (se : sign_env) (ve : verify_env) (m : str) (k : sign_command) :
  op_mode o = MCanonicalize -> run w o stdin se ve = Done (Ok m) -> ~ call_signed w' k m.
Proof.
  intros M R (c & So & B). destruct (printed_base _ _ _ _ _ _ M R) as (r & a & oc & _ & _ & I & _ & B').
  destruct (stamp_params _ _ _ (seconds (se_sys (call_env k))) So) as (a' & n & t & oc' & _ & _ & _ & _ & _ & E). rewrite E in B.
  unfold params_signed in B. rewrite !app_assoc in B. apply base_end in B. destruct B as [x B].
  unfold params_printed in B'. rewrite !app_assoc in B'. apply base_end in B'. destruct B' as [y B'].
  rewrite B' in B. clear B'. rewrite !app_assoc in B. rewrite <- (app_assoc _ ["="%char; ch_quote]), <- (app_assoc _ _ [ch_quote]) in B.
  rewrite <- (app_assoc _ (["="%char; ch_quote])), <- (app_assoc _ _ [ch_quote]) in B.
  rewrite <- !app_assoc in B. rewrite (app_assoc y), (app_assoc x) in B. rewrite (app_assoc (y ++ _)), (app_assoc (x ++ _)) in B.
  apply last_value in B; [|now apply known_quotes].
  change $"alg" with ($"al" ++ $"g") in B. change $"keyid" with ($"keyi" ++ $"d") in B. rewrite !app_assoc in B.
  apply app_inj_tail in B. destruct B as [_ B]. discriminate B.
Qed.

Lemma given_mode (m : mode) (o : opt) (oc : option (list component)) : given (as_mode m o) oc -> given o oc.
Proof. intro G. destruct o, G; econstructor; eassumption. Qed.
Lemma given_same (o : opt) (x y : option (list component)) : given o x -> given o y -> x = y.
Proof. apply given_fun. Qed.

Lemma base_alike (f : component -> outcome (option str)) (cs : list component) (p q : list (str * bare)) (m m' : str) :
  signature_base f cs p m -> signature_base f cs q m' -> alike_but m m' p q.
Proof.
  intros (ids & vals & sp & I & V & (its & pt & T & P & ->) & ->) B. pose proof B as (ids' & vals' & sp' & _ & _ & (its' & pt' & _ & P' & _) & _).
  assert (B' : signature_base f cs q (lines (map (fun iv => fst iv ++ [":"%char; " "%char] ++ snd iv) (combine ids vals)
                     ++ [s2b """@signature-params"": " ++ ["("%char] ++ spaced its ++ [")"%char] ++ pt']))).
  { exists ids, vals, (["("%char] ++ spaced its ++ [")"%char] ++ pt'). split; [exact I|]. split; [exact V|]. split; [|reflexivity].
    exists its, pt'. split; [exact T|]. split; [exact P'|reflexivity]. }
  rewrite (signature_base_fun _ _ _ _ _ B B'). clear B B'.
  exists (map (fun iv => fst iv ++ [":"%char; " "%char] ++ snd iv) (combine ids vals)), (spaced its), pt, pt'.
  split; [exact P|]. split; [exact P'|]. rewrite !lines_end. split; reflexivity.
Qed.

Lemma shown_alike (w : world) (o : opt) (stdin : str) (se : sign_env) (ve : verify_env) (m m' : str) (k : sign_command) :
  op_mode o = MCanonicalize -> run w o stdin se ve = Done (Ok m) ->
  run_request w o stdin (call_request k) -> call_opts k = as_mode MSign o -> call_signed w k m' ->
  exists a n, op_algorithm o = Some a /\ announced a n /\ alike_but m m' (params_printed o a) (params_signed o n).
Proof.
  intros M R RR Ko (c & So & B). destruct (printed_base _ _ _ _ _ _ M R) as (r & a & oc & RR' & A & I & G & B').
  pose proof (run_request_fun _ _ _ _ _ RR RR'). subst r. rewrite Ko in So.
  destruct (stamp_params _ _ _ (seconds (se_sys (call_env k))) So) as (a' & n & t & oc' & A' & _ & N & G' & Cs & E). rewrite E, Cs in B.
  apply given_mode in G'. pose proof (given_same _ _ _ G G'). subst oc'. cbn [as_mode op_algorithm] in A'. rewrite A in A'. injection A' as <-.
  exists a, n. split; [exact A|]. split; [exact N|]. eapply base_alike; [exact B'|exact B].
Qed.

Definition printable (p : list (str * bare)) : Prop := exists t, params_text p t.
Lemma printable_app (p q : list (str * bare)) : printable (p ++ q) <-> printable p /\ printable q.
Proof.
  split.
  - intros [t H]. apply params_app in H. destruct H as (a & b & A & B & _). split; eexists; eassumption.
  - intros [[a A] [b B]]. induction A as [|k p kt pt K P IH|k v p kt vt pt N K V P IH]; [exists b; exact B| |]; destruct IH as [t IH]; eexists; cbn [app].
    + apply pt_true; [exact K|exact IH].
    + apply pt_value; [exact N|exact K|exact V|exact IH].
Qed.
Lemma base_with (f : component -> outcome (option str)) (cs : list component) (p q : list (str * bare)) (m : str) :
  signature_base f cs p m -> printable q -> exists m', signature_base f cs q m'.
Proof.
  intros (ids & vals & sp & I & V & (its & pt & T & P & ->) & ->) [t Q]. eexists. exists ids, vals. eexists. split; [exact I|]. split; [exact V|].
  split; [exists its, t; split; [exact T|]; split; [exact Q|reflexivity]|reflexivity].
Qed.
Lemma base_printable (f : component -> outcome (option str)) (cs : list component) (p : list (str * bare)) (m : str) : signature_base f cs p m -> printable p.
Proof. intros (ids & vals & sp & I & V & (its & pt & T & P & ->) & ->). now exists pt. Qed.
Lemma loads_known (a : str) (t : key_type) : loads a t -> In a known_names.
Proof. intros []; cbn; tauto. Qed.
Lemma printable_one (k : str) (v : bare) : v <> BBoolean true -> (printable [(k, v)] <-> key_text k k /\ exists t, bare_text v t).
Proof.
  intro N. split.
  - intros [t H]. inversion H as [|? ? kt pt K P|? ? ? kt vt pt Nt K V P]; subst; [now exfalso; apply N|]. split; [|now exists vt].
    destruct K as (A & B & ->). now repeat split.
  - intros [K [t V]]. eexists. apply pt_value; [exact N|exact K|exact V|constructor].
Qed.
Lemma known_text (a : str) : In a known_names -> exists t, bare_text (BString a) t.
Proof.
  intro I. eexists. split; [|reflexivity]. cbn [known_names In] in I.
  repeat (destruct I as [<-|I]; [repeat (constructor; [vm_compute; split; congruence|]); constructor|]). destruct I.
Qed.
Lemma key_nonce : key_text $"nonce" $"nonce".
Proof. split; [|split; [intros c k' E; injection E as <- _; left; vm_compute; split; congruence|reflexivity]]. repeat (constructor; [left; vm_compute; split; congruence|]); constructor. Qed.
Lemma printed_printable (o : opt) (a n : str) : In a known_names -> printable (params_signed o n) ->
  (printable (params_printed o a) <-> forall s, op_nonce o = Some s -> exists t, token_text s t).
Proof.
  intros I H. unfold params_signed in H. rewrite !printable_app in H. destruct H as (_ & Hc & He & Hk). unfold params_printed. rewrite !printable_app. split.
  - intros (_ & _ & Hn & _) s E. rewrite E in Hn. cbn [opt_param] in Hn. apply printable_one in Hn; [|discriminate]. destruct Hn as [_ [t T]]. now exists t.
  - intro Hn. split; [exact Hc|]. split; [exact He|]. split; [|split].
    + destruct (op_nonce o) as [s|]; [|exists []; constructor]. apply printable_one; [discriminate|]. split; [exact key_nonce|exact (Hn s eq_refl)].
    + destruct (op_key_id o); [exact Hk|exists []; constructor].
    + apply printable_one; [discriminate|]. split; [exact key_alg|now apply known_text].
Qed.

Lemma shown_token (w : world) (o : opt) (stdin : str) (se : sign_env) (ve : verify_env) (m' : str) (k : sign_command) :
  op_mode o = MCanonicalize -> run_request w o stdin (call_request k) -> call_opts k = as_mode MSign o -> call_signed w k m' ->
  ((exists m, run w o stdin se ve = Done (Ok m)) <-> forall s, op_nonce o = Some s -> exists t, token_text s t).
Proof.
  intros M RR Ko (c & So & B). rewrite Ko in So.
  destruct (stamp_params _ _ _ (seconds (se_sys (call_env k))) So) as (a & n & t & oc & A & L & N & G & Cs & E). rewrite E, Cs in B.
  apply given_mode in G. cbn [as_mode op_algorithm] in A. pose proof (loads_known a t L) as I.
  rewrite <- (printed_printable o a n I (base_printable _ _ _ _ B)). split.
  - intros [m R]. destruct (printed_base _ _ _ _ _ _ M R) as (r & a' & oc' & _ & A' & _ & _ & B'). rewrite A in A'. injection A' as <-. exact (base_printable _ _ _ _ B').
  - intro P. destruct (base_with _ _ _ _ _ B P) as [m B']. exists m. apply run_canonicalize; [exact M|].
    eapply canon_printed; [exact RR|eapply canon_ok; [exact A|exact I|exact G]|exact B'].
Qed.
Lemma run_signs (w : world) (k : sign_command) (ve : verify_env) (out : str) :
  op_mode (call_opts k) = MSign -> sys_clock_ok (se_sys (call_env k)) -> run_request w (call_opts k) (call_stdin k) (call_request k) ->
  run w (call_opts k) (call_stdin k) (call_env k) ve = Done (Ok out) ->
  exists c sp m, sign_opts w (call_opts k) (Ok c) /\ (forall m', call_signed w k m' <-> m' = m)
    /\ out = request_text (signed_request (call_request k) c (se_rnd (call_env k)) sp m).
Proof.
  intros M S RR Rs. apply (run_sign _ _ _ _ _ _ S M) in Rs. inversion Rs as [| | | | |r c m sp RR0 So _ B _ _ _ E| |]. subst out.
  pose proof (run_request_fun _ _ _ _ _ RR RR0). subst r. exists c, sp, m. split; [exact So|]. split; [|reflexivity].
  intro m'. split; [|intros ->; now exists c]. intros (c' & So' & B'). pose proof (sign_opts_fun _ _ _ _ So So') as X. injection X as <-.
  exact (signature_base_fun _ _ _ _ _ B' B).
Qed.
