(** Facts about failing streams. *)
From Verif Require Export SpecIo.
From Verif Require Import StrFacts.
From Coq Require Import Lia.

(** * Reading *)
Lemma line_whole (s : str) : read_line_io (whole s) = match read_line s with Some (l, r) => Some (l, whole r) | None => None end.
Proof. unfold read_line_io, read_line, whole. cbn [so_text so_fails]. destruct (take_line s) as [l r]. cbn [andb]. now destruct (utf8_valid l). Qed.
Lemma headers_whole (f : nat) : forall (s : str) (hs : header_map),
  match read_headers f s hs, read_headers_io f (whole s) hs with
  | Some (hs', b, r), Some (hs'', b', r') => hs' = hs'' /\ b = b' /\ so_fails r' = false /\ (b = true -> r' = whole r)
  | None, None => True
  | _, _ => False
  end.
Proof.
  induction f as [|f IH]; intros s hs; [exact I|]. cbn [read_headers read_headers_io]. rewrite line_whole.
  destruct (read_line s) as [[[|c l] r]|]; [now repeat split| |exact I].
  destruct (trim (c :: l)); [now repeat split|]. destruct (split_once ":" (c :: l)) as [[n v]|]; [|exact I].
  destruct (hname_parse (trim n)); [|exact I]. destruct (hvalue_parse (trim v)); [|exact I]. apply IH.
Qed.
Lemma reader_whole (trace : bool) (up : url_parser) (s : str) : from_reader_io trace up (whole s) = from_reader trace up s.
Proof.
  unfold from_reader_io, from_reader. rewrite line_whole. destruct (read_line s) as [[l r]|]; [|reflexivity].
  destruct (split_ascii_whitespace l) as [|m [|path [|v x]]]; try reflexivity. destruct (method_parse m); [|reflexivity]. destruct (version_parse v); [|reflexivity].
  cbn [so_text whole]. pose proof (headers_whole (Datatypes.S (List.length r)) r []) as H.
  destruct (read_headers _ r []) as [[[hs b] r0]|], (read_headers_io _ (whole r) []) as [[[hs' b'] r0']|]; try contradiction; [|reflexivity].
  destruct H as (-> & -> & F & B). rewrite F, Bool.andb_false_r. destruct b'; [rewrite (B eq_refl); reflexivity|]. rewrite !Bool.andb_false_r. reflexivity.
Qed.
Lemma line_broken (s l : str) (r : source) : read_line_io (broken s) = Some (l, r) -> l <> [] /\ exists t, r = broken t.
Proof.
  unfold read_line_io, broken. cbn [so_text so_fails]. destruct (take_line s) as [l' r']. cbn [andb].
  destruct (ends_line l') eqn:E; cbn [negb]; [|discriminate]. destruct (utf8_valid l'); [|discriminate]. intro H. injection H as <- <-.
  split; [intros ->; discriminate E|now exists r'].
Qed.
Lemma headers_broken (f : nat) : forall (s : str) (hs hs' : header_map) (b : bool) (r : source), read_headers_io f (broken s) hs = Some (hs', b, r) ->
  b = true /\ so_fails r = true.
Proof.
  induction f as [|f IH]; intros s hs hs' b r; [discriminate|]. cbn [read_headers_io].
  destruct (read_line_io (broken s)) as [[l r0]|] eqn:L; [|discriminate]. apply line_broken in L. destruct L as [N (t & ->)]. destruct l as [|c l]; [now contradiction N|].
  destruct (trim (c :: l)); [intro H; injection H as <- <- <-; now split|]. destruct (split_once ":" (c :: l)) as [[n v]|]; [|discriminate].
  destruct (hname_parse (trim n)); [|discriminate]. destruct (hvalue_parse (trim v)); [|discriminate]. apply IH.
Qed.
Lemma reader_broken (trace : bool) (up : url_parser) (s : str) : from_reader_io trace up (broken s) = Done None.
Proof.
  unfold from_reader_io. destruct (read_line_io (broken s)) as [[l r]|] eqn:L; [|reflexivity]. apply line_broken in L. destruct L as [_ (t & ->)].
  destruct (split_ascii_whitespace l) as [|m [|path [|v x]]]; try reflexivity. destruct (method_parse m); [|reflexivity]. destruct (version_parse v); [|reflexivity].
  cbn [so_text broken]. destruct (read_headers_io _ (broken t) []) as [[[hs b] r0]|] eqn:H; [|reflexivity]. apply headers_broken in H. destruct H as [-> ->]. reflexivity.
Qed.

(** * Writing *)
Definition lf_free (s : str) : Prop := ~ In ch_lf s.
(** How many bytes the device holds when it is full. *)
Definition full (k : sink) : option nat := match sk_room k with None => None | Some n => Some (n + List.length (sk_dev k))%nat end.
Definition steady (k : sink) : Prop := lf_free (sk_buf k) /\ (List.length (sk_buf k) <= line_capacity)%nat.
(** After writing [s]: everything is on the device or in the buffer, or the device is full. *)
Definition put (k : sink) (s : str) (k' : sink) (ok : bool) : Prop :=
  full k' = full k /\
  if ok then sk_dev k' ++ sk_buf k' = sk_dev k ++ sk_buf k ++ s
  else sk_room k' = Some O /\ exists rest, rest <> [] /\ sk_dev k ++ sk_buf k ++ s = sk_dev k' ++ rest.
Lemma put_app (k : sink) (s : str) (k' : sink) (t : str) (k'' : sink) (ok : bool) : put k s k' true -> put k' t k'' ok -> put k (s ++ t) k'' ok.
Proof.
  intros [F1 E1] [F2 E2]. split; [congruence|]. assert (X : sk_dev k ++ sk_buf k ++ s ++ t = sk_dev k' ++ sk_buf k' ++ t).
  { rewrite !app_assoc. rewrite E1. now rewrite !app_assoc. }
  destruct ok; [now rewrite X|]. destruct E2 as (R & rest & N & E2). split; [exact R|]. exists rest. split; [exact N|]. now rewrite X.
Qed.
Lemma put_stop (k : sink) (s : str) (k' : sink) (t : str) : put k s k' false -> put k (s ++ t) k' false.
Proof.
  intros [F (R & rest & N & E)]. split; [exact F|]. split; [exact R|]. exists (rest ++ t). split; [now destruct rest|].
  rewrite !app_assoc. rewrite !app_assoc in E. now rewrite E.
Qed.
Lemma put_nil (k : sink) : put k [] k true.
Proof. split; [reflexivity|now rewrite app_nil_r]. Qed.
Lemma dev_put (k : sink) (s : str) : let '(k', ok) := dev_all k s in
  full k' = full k /\ sk_buf k' = sk_buf k
  /\ if ok then sk_dev k' = sk_dev k ++ s else sk_room k' = Some O /\ exists n, (n < List.length s)%nat /\ sk_dev k' = sk_dev k ++ firstn n s.
Proof.
  unfold dev_all, full. destruct k as [[n|] d b]; cbn [sk_room sk_dev sk_buf]; [|now repeat split].
  destruct (List.length s <=? n)%nat eqn:L; cbn [sk_room sk_dev sk_buf].
  - apply Nat.leb_le in L. split; [rewrite app_length; f_equal; lia|now split].
  - apply Nat.leb_gt in L. split; [rewrite app_length, firstn_length; f_equal; lia|]. split; [reflexivity|]. split; [reflexivity|]. exists n. now split.
Qed.
Lemma cut_rest (n : nat) (s : str) : (n < List.length s)%nat -> skipn n s <> [].
Proof. intros L E. apply (f_equal (@List.length ascii)) in E. rewrite skipn_length in E. cbn in E. lia. Qed.
Lemma flush_put (k : sink) : let '(k', ok) := flush_buf k in put k [] k' ok /\ (ok = true -> sk_buf k' = []).
Proof.
  unfold flush_buf. pose proof (dev_put k (sk_buf k)) as H. destruct (dev_all k (sk_buf k)) as [k' ok]. destruct H as (F & B & H).
  destruct ok; unfold put, full in *; cbn [sk_room sk_dev sk_buf].
  - split; [|reflexivity]. split; [exact F|]. now rewrite H, !app_nil_r.
  - split; [|discriminate]. split; [exact F|]. destruct H as [R (n & L & D)]. split; [exact R|]. exists (skipn n (sk_buf k)). split; [now apply cut_rest|].
    now rewrite D, <- app_assoc, firstn_skipn, app_nil_r.
Qed.
Lemma push_put (k : sink) (s : str) : put k s (fst (push_buf k s)) true.
Proof. split; [reflexivity|]. cbn. reflexivity. Qed.
(** Straight to the device, with an empty buffer. *)
Lemma dev_put_empty (k : sink) (s : str) : sk_buf k = [] -> let '(k', ok) := dev_all k s in put k s k' ok /\ sk_buf k' = [].
Proof.
  intro E. pose proof (dev_put k s) as H. destruct (dev_all k s) as [k' ok]. destruct H as (F & B & H). split; [|now rewrite B].
  split; [exact F|]. rewrite E. destruct ok; [rewrite B, E, H; now rewrite app_nil_r|]. destruct H as [R (n & L & D)]. split; [exact R|].
  exists (skipn n s). split; [now apply cut_rest|]. cbn [app]. now rewrite D, <- app_assoc, firstn_skipn.
Qed.
Lemma buf_put (k : sink) (s : str) : (List.length (sk_buf k) <= line_capacity)%nat -> let '(k', ok) := buf_all k s in
  put k s k' ok /\ (ok = true -> (List.length (sk_buf k') <= line_capacity)%nat /\ (lf_free (sk_buf k) -> lf_free s -> lf_free (sk_buf k'))).
Proof.
  intro C. unfold buf_all. destruct (List.length s <? line_capacity - List.length (sk_buf k))%nat eqn:A.
  - apply Nat.ltb_lt in A. unfold push_buf. split; [apply push_put|]. intros _. cbn [sk_buf]. rewrite app_length. split; [lia|].
    intros F G I. apply in_app_or in I. destruct I; [now apply F|now apply G].
  - apply Nat.ltb_ge in A. destruct (line_capacity - List.length (sk_buf k) <? List.length s)%nat eqn:B.
    + pose proof (flush_put k) as FL. destruct (flush_buf k) as [k1 ok]. destruct FL as [P E]. destruct ok; cbn [negb].
      * specialize (E eq_refl). destruct (line_capacity <=? List.length s)%nat eqn:D.
        -- pose proof (dev_put_empty k1 s E) as H. destruct (dev_all k1 s) as [k2 ok]. destruct H as [H H']. split; [now apply (put_app k [] k1 s k2)|].
           intros _. rewrite H'. split; [cbn; lia|]. now intros _ _ [].
        -- apply Nat.leb_gt in D. unfold push_buf. split; [apply (put_app k [] k1 s); [exact P|apply push_put]|]. intros _. cbn [sk_buf]. rewrite E. cbn [app]. split; [lia|now intros].
      * split; [now apply (put_stop k [])|discriminate].
    + apply Nat.ltb_ge in B. cbn [negb]. destruct (line_capacity <=? List.length s)%nat eqn:D.
      * apply Nat.leb_le in D. assert (E : sk_buf k = []) by (apply length_zero_iff_nil; lia). pose proof (dev_put_empty k s E) as H.
        destruct (dev_all k s) as [k2 ok]. destruct H as [H H']. split; [exact H|]. intros _. rewrite H'. split; [cbn; lia|]. now intros _ _ [].
      * unfold push_buf. split; [apply push_put|]. intros _. cbn [sk_buf]. rewrite app_length. split; [lia|].
        intros F G I. apply in_app_or in I. destruct I; [now apply F|now apply G].
Qed.
Lemma last_lf_some (s a b : str) : last_lf s = Some (a, b) -> s = a ++ b /\ lf_free b.
Proof.
  revert a b. induction s as [|c s IH]; intros a b; [discriminate|]. cbn [last_lf]. destruct (last_lf s) as [[a' b']|] eqn:E.
  - intro H. injection H as <- <-. destruct (IH a' b' eq_refl) as [-> F]. now split.
  - destruct (Ascii.eqb c ch_lf); [|discriminate]. intro H. injection H as <- <-. split; [reflexivity|]. clear IH. revert E. induction s as [|d s IH]; intro E; [intros []|].
    cbn [last_lf] in E. destruct (last_lf s) as [[? ?]|]; [discriminate|]. destruct (Ascii.eqb d ch_lf) eqn:D; [discriminate|]. intros [->|I]; [now rewrite Ascii.eqb_refl in D|now apply IH].
Qed.
Lemma last_lf_none (s : str) : last_lf s = None -> lf_free s.
Proof.
  induction s as [|d s IH]; intro E; [intros []|]. cbn [last_lf] in E. destruct (last_lf s) as [[? ?]|]; [discriminate|].
  destruct (Ascii.eqb d ch_lf) eqn:D; [discriminate|]. intros [->|I]; [now rewrite Ascii.eqb_refl in D|now apply IH].
Qed.
Lemma free_open (s : str) : lf_free s -> ends_line s = false.
Proof.
  intro F. unfold ends_line. destruct (rev s) as [|c r] eqn:R; [reflexivity|]. destruct (Ascii.eqb c ch_lf) eqn:E; [|reflexivity]. exfalso. apply F.
  apply in_rev. rewrite R. left. now apply Ascii.eqb_eq in E.
Qed.
Lemma line_put (k : sink) (s : str) : steady k -> let '(k', ok) := line_all k s in put k s k' ok /\ (ok = true -> steady k').
Proof.
  intros [F C]. unfold line_all. destruct (last_lf s) as [[a b]|] eqn:L.
  - apply last_lf_some in L. destruct L as [-> Fb].
    assert (M : let '(k1, ok) := match sk_buf k with [] => dev_all k a | _ => let '(k, ok) := buf_all k a in if ok then flush_buf k else (k, false) end in
                put k a k1 ok /\ (ok = true -> sk_buf k1 = [])).
    { destruct (sk_buf k) as [|c l] eqn:E.
      - pose proof (dev_put_empty k a E) as H. destruct (dev_all k a) as [k1 ok]. split; [apply H|now intros _].
      - rewrite <- E in *. clear E c l. pose proof (buf_put k a C) as H. destruct (buf_all k a) as [k1 ok]. destruct H as [H _]. destruct ok; [|now split].
        pose proof (flush_put k1) as G. destruct (flush_buf k1) as [k2 ok]. destruct G as [G E]. split; [|exact E]. rewrite <- (app_nil_r a). now apply (put_app k a k1). }
    destruct (match sk_buf k with [] => dev_all k a | _ => _ end) as [k1 ok]. destruct M as [M E]. destruct ok; [|split; [now apply put_stop|discriminate]].
    specialize (E eq_refl). assert (C1 : (List.length (sk_buf k1) <= line_capacity)%nat) by (rewrite E; cbn; lia).
    pose proof (buf_put k1 b C1) as H. destruct (buf_all k1 b) as [k2 ok]. destruct H as [H G]. split; [now apply (put_app k a k1)|]. intro K. destruct (G K) as [G1 G2].
    split; [apply G2; [rewrite E; now intros []|exact Fb]|exact G1].
  - apply last_lf_none in L. rewrite (free_open _ F). pose proof (buf_put k s C) as H. destruct (buf_all k s) as [k2 ok]. destruct H as [H G]. split; [exact H|].
    intro K. destruct (G K) as [G1 G2]. split; [now apply G2|exact G1].
Qed.
Lemma pieces_put (ps : list str) : forall k : sink, steady k -> let '(k', ok) := pieces_all k ps in put k (List.concat ps) k' ok /\ (ok = true -> steady k').
Proof.
  induction ps as [|p ps IH]; intros k S; cbn [pieces_all List.concat]; [split; [apply put_nil|now intros _]|].
  pose proof (line_put k p S) as H. destruct (line_all k p) as [k1 ok]. destruct H as [H G]. destruct ok; [|split; [now apply put_stop|discriminate]].
  specialize (IH k1 (G eq_refl)). destruct (pieces_all k1 ps) as [k2 ok]. destruct IH as [I1 I2]. split; [now apply (put_app k p k1)|exact I2].
Qed.
(** A writer that also stops by itself: [b] says whether the text is whole. *)
Definition puts (k : sink) (s : str) (b : bool) (k' : sink) (ok : bool) : Prop := exists ok', put k s k' ok' /\ (ok' = true -> steady k') /\ ok = b && ok'.
Lemma headers_put (hs : header_map) : forall k : sink, steady k -> let '(k', ok) := write_headers_io k hs in let '(t, b) := write_headers hs in puts k t b k' ok.
Proof.
  induction hs as [|[n v] hs IH]; intros k S; cbn [write_headers_io write_headers]; [exists true; split; [apply put_nil|now split]|].
  destruct (hvalue_to_str v) as [t|]; [|exists true; split; [apply put_nil|now split]].
  pose proof (pieces_put [n; $": "; t; [ch_lf]] k S) as H. destruct (pieces_all k [n; $": "; t; [ch_lf]]) as [k1 ok]. destruct H as [H G].
  assert (X : forall rest, n ++ $": " ++ t ++ [ch_lf] ++ rest = List.concat [n; $": "; t; [ch_lf]] ++ rest).
  { intro rest. cbn [List.concat]. now rewrite !app_nil_r, <- !app_assoc. }
  destruct ok.
  - specialize (IH k1 (G eq_refl)). destruct (write_headers_io k1 hs) as [k2 ok]. destruct (write_headers hs) as [r b]. destruct IH as (ok' & I1 & I2 & I3).
    exists ok'. rewrite X. split; [now apply (put_app k _ k1)|now split].
  - destruct (write_headers hs) as [r b]. exists false. rewrite X. split; [now apply put_stop|]. split; [discriminate|now rewrite Bool.andb_false_r].
Qed.
Lemma write_put (r : mock) (k : sink) : steady k -> let '(k', ok) := write_io k r in let '(t, b) := write_out r in puts k t b k' ok.
Proof.
  intro S. unfold write_io, write_out.
  assert (X : forall rest, mr_method r ++ $" " ++ mr_path r ++ $" HTTP/1.1" ++ [ch_lf] ++ rest = List.concat [mr_method r; $" "; mr_path r; $" HTTP/1.1" ++ [ch_lf]] ++ rest).
  { intro rest. cbn [List.concat]. rewrite app_nil_r, <- !app_assoc. reflexivity. }
  pose proof (pieces_put [mr_method r; $" "; mr_path r; $" HTTP/1.1" ++ [ch_lf]] k S) as H.
  destruct (pieces_all k [mr_method r; $" "; mr_path r; $" HTTP/1.1" ++ [ch_lf]]) as [k1 ok]. destruct H as [H G]. destruct ok; cbn [negb].
  - pose proof (headers_put (mr_headers r) k1 (G eq_refl)) as I. destruct (write_headers_io k1 (mr_headers r)) as [k2 ok]. destruct (write_headers (mr_headers r)) as [t b].
    destruct I as (ok' & I1 & I2 & ->). rewrite X. destruct b; cbn [andb].
    + destruct ok'; cbn [negb].
      * destruct (mr_body r) as [body|].
        -- pose proof (pieces_put [[ch_lf]; body] k2 (I2 eq_refl)) as J. destruct (pieces_all k2 [[ch_lf]; body]) as [k3 ok]. destruct J as [J1 J2]. exists ok. split; [|now split].
           apply (put_app k _ k1); [exact H|]. apply (put_app k1 _ k2); [exact I1|]. cbn [List.concat app] in J1. now rewrite app_nil_r in J1.
        -- exists true. split; [|now split]. apply (put_app k _ k1); [exact H|]. now rewrite app_nil_r.
      * exists false. split; [|now split]. apply (put_app k _ k1); [exact H|]. now apply put_stop.
    + exists ok'. cbn [negb]. rewrite app_nil_r. split; [now apply (put_app k _ k1)|now split].
  - destruct (write_headers (mr_headers r)) as [t b]. exists false. rewrite X. split; [now apply put_stop|]. split; [discriminate|now rewrite Bool.andb_false_r].
Qed.

(** * The end *)
Lemma exit_kept (room : option nat) (s : str) (k : sink) (ok : bool) : put (fresh room) s k ok -> sk_dev (at_exit k) = kept room s.
Proof.
  intros [F H]. unfold at_exit, flush_buf, dev_all, full in *. cbn [fresh sk_room sk_dev sk_buf List.length app] in *. destruct k as [[n|] d b]; cbn [sk_room sk_dev sk_buf] in *.
  - destruct room as [m|]; [|discriminate]. injection F as F. cbn [kept]. destruct ok.
    + subst s. destruct (List.length b <=? n)%nat eqn:L; cbn [fst sk_dev].
      * apply Nat.leb_le in L. rewrite firstn_all2; [reflexivity|rewrite app_length; lia].
      * rewrite firstn_app, (firstn_all2 d) by lia. do 2 f_equal. lia.
    + destruct H as [R (rest & N & ->)]. injection R as ->. assert (X : firstn m (d ++ rest) = d).
      { replace m with (List.length d + 0)%nat by lia. rewrite firstn_app_2. cbn [firstn]. apply app_nil_r. }
      rewrite X. destruct (List.length b <=? 0)%nat eqn:L; cbn [fst sk_dev].
      * apply Nat.leb_le in L. destruct b; [apply app_nil_r|cbn in L; lia].
      * cbn [firstn]. apply app_nil_r.
  - destruct room; [discriminate|]. cbn [fst sk_dev kept]. destruct ok; [exact H|]. destruct H as [R _]. discriminate.
Qed.
Lemma put_fits (room : option nat) (s : str) (k : sink) : fits room s -> put (fresh room) s k false -> False.
Proof.
  unfold fits. intros L [F (R & rest & N & E)]. unfold full in F. cbn [fresh sk_room sk_dev sk_buf List.length app] in *. rewrite R in F. destruct room as [m|]; [|discriminate]. injection F as F.
  subst s. rewrite app_length in L. destruct rest; [now apply N|]. cbn [List.length] in L. lia.
Qed.
Lemma put_lost (room : option nat) (s : str) (k : sink) : put (fresh room) s k true -> steady k ->
  lf_free (lost room s) /\ (List.length (lost room s) <= line_capacity)%nat.
Proof.
  intros [F H] [L C]. cbn [fresh sk_room sk_dev sk_buf app] in *. subst s. destruct room as [m|]; cbn [lost]; [|split; [intros []|cbn; lia]].
  unfold full in F. cbn [fresh sk_room sk_dev] in F. destruct (sk_room k) as [n|]; [|discriminate]. injection F as F. cbn [List.length] in F.
  rewrite skipn_app, (skipn_all2 (sk_dev k)) by lia. cbn [app]. split.
  - intro I. apply L. rewrite <- (firstn_skipn (m - List.length (sk_dev k)) (sk_buf k)). apply in_or_app. now right.
  - rewrite skipn_length. lia.
Qed.
Lemma steady_fresh (room : option nat) : steady (fresh room).
Proof. split; [intros []|cbn; lia]. Qed.

(** * The program *)
Section Run.
  Variables (w : world) (files : str -> option source) (o : opt) (se : sign_env) (ve : verify_env) (room : option nat).
  Lemma exit_fresh : sk_dev (at_exit (fresh room)) = [].
  Proof. rewrite (exit_kept room [] (fresh room) true (put_nil _)). unfold kept. destruct room; [apply firstn_nil|reflexivity]. Qed.
  Definition goes (res : outcome (str * option verror)) (io : outcome (option verror) * sink) : Prop :=
    match res with
    | Panic => fst io = Panic /\ sk_dev (snd io) = []
    | Done (out, e) => sk_dev (snd io) = kept room out
        /\ (fst io = Done e /\ (e = None -> ~ In ch_lf (lost room out) /\ (List.length (lost room out) <= line_capacity)%nat)
            \/ fst io = Done (Some VIo) /\ ~ fits room out)
    end.
  Lemma goes_quiet (e : option verror) : e <> None -> goes (Done ([], e)) (Done e, at_exit (fresh room)).
  Proof.
    intro N. split; [cbn [snd]; rewrite exit_fresh; unfold kept; destruct room; [now rewrite firstn_nil|reflexivity]|]. left. split; [reflexivity|]. now intros ->.
  Qed.
  Lemma goes_put (out : str) (e : option verror) (k : sink) (ok : bool) : put (fresh room) out k ok -> (ok = true -> steady k) ->
    goes (Done (out, e)) (Done (if ok then e else Some VIo), at_exit k).
  Proof.
    intros P S. split; [exact (exit_kept room out k ok P)|]. cbn [fst]. destruct ok.
    - left. split; [reflexivity|]. intros _. exact (put_lost room out k P (S eq_refl)).
    - right. split; [reflexivity|]. intro F. exact (put_fits room out k F P).
  Qed.
  Lemma main_broken (stdin : source) : match op_in_file o with Some f => exists s, files f = Some (broken s) | None => exists s, stdin = broken s end ->
    fst (main_io w files o stdin (fresh room) se ve) = Panic /\ sk_dev (snd (main_io w files o stdin (fresh room) se ve)) = [].
  Proof.
    intro H. unfold main_io. destruct (op_in_file o) as [f|]; destruct H as [s E]; [rewrite E|subst stdin]; cbn [unwrap obind]; rewrite reader_broken; cbn [obind unwrap];
      (split; [reflexivity|exact exit_fresh]).
  Qed.
  Hypothesis agree : forall f, op_in_file o = Some f -> files f = option_map whole (w_read w f).
  Lemma main_goes (stdin : str) : goes (main w o stdin se ve) (main_io w files o (whole stdin) (fresh room) se ve).
  Proof.
    unfold main, main_io.
    assert (I : forall (A B : Type) (p : str -> outcome A) (q : source -> outcome B) (R : outcome A -> outcome B -> Prop),
      R Panic Panic -> (forall s, R (p s) (q (whole s))) ->
      R (do input <- match op_in_file o with Some f => unwrap (w_read w f) | None => Done stdin end; p input)
        (do input <- match op_in_file o with Some f => unwrap (files f) | None => Done (whole stdin) end; q input)).
    { intros A B p q R RP RS. destruct (op_in_file o) as [f|] eqn:E; [|apply RS]. rewrite (agree f eq_refl). destruct (w_read w f); [apply RS|exact RP]. }
    apply (I _ _ _ _ (fun res x => goes res (match x with Done (e, k') => (Done e, at_exit k') | Panic => (Panic, at_exit (fresh room)) end))); clear I.
    - split; [reflexivity|exact exit_fresh].
    - intro s. rewrite reader_whole. destruct (from_reader (w_trace w) (w_url w) s) as [[r|]|]; cbn [obind unwrap]; [|split; [reflexivity|exact exit_fresh]|split; [reflexivity|exact exit_fresh]].
      destruct (op_mode o).
      + destruct (canonicalize_config o) as [cc|e]; [|now apply goes_quiet]. destruct (canonicalize mr_rl r cc) as [[[base x]|x]|]; cbn [obind]; [| |split; [reflexivity|exact exit_fresh]].
        * pose proof (line_put (fresh room) base (steady_fresh room)) as H. destruct (line_all (fresh room) base) as [k ok]. destruct H as [H S]. exact (goes_put base None k ok H S).
        * now apply goes_quiet.
      + destruct (signing_config_of w o) as [c|e]; [|now apply goes_quiet]. destruct (sign mr_client r c se) as [[r' [x|x]]|]; cbn [obind]; [| |split; [reflexivity|exact exit_fresh]].
        * pose proof (write_put r' (fresh room) (steady_fresh room)) as H. destruct (write_io (fresh room) r') as [k ok]. destruct (write_out r') as [out b]. destruct H as (ok' & P & S & ->).
          pose proof (goes_put out (if b then None else Some VIo) k ok' P S) as G. destruct b, ok'; exact G.
        * now apply goes_quiet.
      + destruct (verification_config_of w o) as [c|e]; [|now apply goes_quiet]. destruct (verify mr_server r c ve) as [[x|x]|]; cbn [obind]; [| |split; [reflexivity|exact exit_fresh]].
        * exact (goes_put [] None (fresh room) true (put_nil _) (fun _ => steady_fresh room)).
        * now apply goes_quiet.
  Qed.
  Variables (stdin : str) (out : str) (e : option verror).
  Let io := main_io w files o (whole stdin) (fresh room) se ve.
  Hypothesis ran : main w o stdin se ve = Done (out, e).
  Lemma io_output : sk_dev (snd io) = kept room out.
  Proof. pose proof (main_goes stdin) as H. rewrite ran in H. apply H. Qed.
  Lemma io_enough : fits room out -> fst io = Done e.
  Proof. intro F. pose proof (main_goes stdin) as H. rewrite ran in H. destruct H as [_ [[H _]|[_ H]]]; [exact H|now contradiction H]. Qed.
  Lemma io_either : fst io = Done e \/ fst io = Done (Some VIo) /\ ~ fits room out.
  Proof. pose proof (main_goes stdin) as H. rewrite ran in H. destruct H as [_ [[H _]|H]]; [now left|now right]. Qed.
  Lemma io_success : fst io = Done None -> e = None /\ ~ In ch_lf (lost room out) /\ (N.of_nat (List.length (lost room out)) <= 1024)%N.
  Proof.
    intro S. pose proof (main_goes stdin) as H. rewrite ran in H. destruct H as [_ [[H L]|[H _]]]; fold io in H; rewrite S in H; [|discriminate]. injection H as <-.
    destruct (L eq_refl) as [L1 L2]. split; [reflexivity|]. split; [exact L1|]. unfold line_capacity in L2. lia.
  Qed.
  Lemma io_lines (x : str) : out = x ++ [ch_lf] -> (fst io = Done None <-> e = None /\ fits room out).
  Proof.
    intro E. split.
    - intro S. destruct (io_success S) as (N & L & _). split; [exact N|]. unfold lost, fits in *. destruct room as [n|]; [|exact I].
      destruct (Nat.le_gt_cases (List.length out) n) as [G|G]; [exact G|]. exfalso. apply L. subst out. rewrite app_length in G. cbn [List.length] in G.
      rewrite skipn_app. apply in_or_app. right. replace (n - List.length x)%nat with O by lia. now left.
    - intros [N F]. rewrite (io_enough F). now f_equal.
  Qed.
End Run.
