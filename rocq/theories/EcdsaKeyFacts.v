(** Lemmas about private-key files. *)
From Verif Require Export SpecEcdsaKey EcdsaCrate.
From Verif Require Import StrFacts KeyFacts ShaFacts RsaFacts MakeFacts.
Local Open Scope N_scope.

Notation small v := (N.of_nat (List.length v) < 65536).
Lemma ring_tlv_iff (t : N) (v r s : str) : t < 256 -> ring_tlv (ascii_of_N t) s = Some (v, r) <-> exists x, tagged t v x /\ s = x ++ r /\ small v.
Proof.
  intro T. unfold ring_tlv. split.
  - destruct (der_tlv _ s) as [[v' r']|] eqn:D; [|discriminate]. destruct (N.ltb_spec (N.of_nat (List.length v')) 65536) as [L|L]; [|discriminate].
    intro H. injection H as -> ->. apply der_tlv_iff in D; [|exact T]. destruct D as (x & X & E). eauto.
  - intros (x & X & E & L). rewrite (proj2 (der_tlv_iff v r s t T)) by eauto. destruct (N.ltb_spec (N.of_nat (List.length v)) 65536); [reflexivity|lia].
Qed.
Lemma ring_only_iff (t : N) (v s : str) : t < 256 -> ring_only (ascii_of_N t) s = Some v <-> tagged t v s /\ small v.
Proof.
  intro T. unfold ring_only. split.
  - destruct (ring_tlv _ s) as [[v' [|]]|] eqn:D; try discriminate. intro H. injection H as ->. apply ring_tlv_iff in D; [|exact T].
    destruct D as (x & X & -> & L). now rewrite app_nil_r.
  - intros [X L]. rewrite (proj2 (ring_tlv_iff t v [] s T)); [reflexivity|]. exists s. now rewrite app_nil_r.
Qed.
Lemma ring_version_iff (v : N) (s r : str) : ring_version v s = Some r <-> exists x, tagged 2 [ascii_of_N v] x /\ s = x ++ r.
Proof.
  unfold ring_version, tag_integer. split.
  - destruct (ring_tlv _ s) as [[x r']|] eqn:D; [|discriminate]. destruct (str_eqb x _) eqn:E; [|discriminate]. apply str_eqb_eq in E. intro H.
    injection H as ->. apply ring_tlv_iff in D; [|lia]. destruct D as (y & Y & -> & _). subst x. eauto.
  - intros (x & X & ->). rewrite (proj2 (ring_tlv_iff 2 [ascii_of_N v] r (x ++ r) ltac:(lia))); [now rewrite str_eqb_refl|].
    exists x. cbn [List.length]. split; [exact X|]. split; [reflexivity|lia].
Qed.
Lemma next_is_tagged (t t' : N) (v x r : str) : t < 256 -> t' < 256 -> tagged t v x -> next_is (ascii_of_N t') (x ++ r) = (t =? t').
Proof.
  intros T T' (l & _ & ->). cbn [app next_is]. destruct (N.eqb_spec t t') as [->|N]; [apply Ascii.eqb_refl|].
  apply Ascii.eqb_neq. intro E. apply N. now rewrite <- (code_of t T), <- (code_of t' T'), E.
Qed.
Lemma tagged_longer (t : N) (v x : str) : tagged t v x -> (List.length v < List.length x)%nat.
Proof. intros (l & _ & ->). cbn [List.length]. rewrite app_length. lia. Qed.
Lemma short_small (t : N) (v x : str) : tagged t v x -> (short_file x <-> small v).
Proof.
  intros (l & L & ->). unfold short_file. cbn [List.length]. rewrite app_length. destruct L as [L|b r L F B E].
  - cbn [List.length]. lia.
  - pose proof (big_endian_min b r) as M. pose proof (big_endian_lt (b :: r)) as U. rewrite E in U, M. apply M in B. clear M.
    cbn [List.length] in *. destruct r as [|b1 [|b2 [|b3 [|b4 r]]]]; cbn [List.length] in *; try lia.
Qed.
Lemma tagged_same (t : N) (v x y : str) : tagged t v x -> tagged t v y -> N.of_nat (List.length v) < 128 -> x = y.
Proof.
  intros (l & L & ->) (l' & L' & ->) S. destruct L, L'; [reflexivity|lia|lia|lia].
Qed.
Lemma curve_id_is (x : str) : tagged 6 oid_p256 x <-> x = p256_curve_id.
Proof.
  assert (T : tagged 6 oid_p256 p256_curve_id) by (exists [ascii_of_N 8]; split; [constructor; reflexivity|reflexivity]).
  split; [intro H; apply (tagged_same _ _ _ _ H T); reflexivity|now intros ->].
Qed.
Definition ec_id : str := map ascii_of_N [6; 7; 42; 134; 72; 206; 61; 2; 1].
Lemma ec_id_is (x : str) : tagged 6 oid_ec x <-> x = ec_id.
Proof.
  assert (T : tagged 6 oid_ec ec_id) by (exists [ascii_of_N 7]; split; [constructor; reflexivity|reflexivity]).
  split; [intro H; apply (tagged_same _ _ _ _ H T); reflexivity|now intros ->].
Qed.

(** ** PrivateKeyInfo *)
Definition wrapped_key (algorithm key s : str) : Prop :=
  exists version alg k attributes, tagged 2 [byte 0] version /\ tagged 48 algorithm alg /\ tagged 4 key k
    /\ (attributes = [] \/ exists a, tagged 160 a attributes) /\ tagged 48 (version ++ alg ++ k ++ attributes) s.
Lemma unwrap_iff (algorithm key s : str) : unwrap_key algorithm s = Some key <-> wrapped_key algorithm key s /\ short_file s.
Proof.
  unfold unwrap_key, tag_sequence, tag_octets, tag_context0. split.
  - destruct (ring_only _ s) as [body|] eqn:D; [|discriminate]. cbn [andThen]. apply ring_only_iff in D; [|lia]. destruct D as [D L].
    destruct (ring_version 0 body) as [s1|] eqn:V; [|discriminate]. cbn [andThen]. apply ring_version_iff in V. destruct V as (version & V & ->).
    destruct (ring_tlv _ s1) as [[alg s2]|] eqn:A; [|discriminate]. apply ring_tlv_iff in A; [|lia]. destruct A as (x & A & -> & _).
    destruct (str_eqb alg algorithm) eqn:E; [|discriminate]. apply str_eqb_eq in E. subst alg.
    destruct (ring_tlv _ s2) as [[key' s3]|] eqn:K; [|discriminate]. apply ring_tlv_iff in K; [|lia]. destruct K as (k & K & -> & _).
    intro H. split; [|now apply (short_small 48 _ _ D)].
    assert (R : key' = key /\ (s3 = [] \/ exists a, tagged 160 a s3)).
    { destruct (next_is _ s3).
      - destruct (ring_tlv _ s3) as [[a [|]]|] eqn:B; try discriminate. apply ring_tlv_iff in B; [|lia]. destruct B as (b & B & -> & _).
        rewrite app_nil_r. injection H as ->. eauto.
      - destruct s3; [|discriminate]. injection H as ->. auto. }
    destruct R as [-> R]. exists version, x, k, s3. auto.
  - intros ((version & alg & k & attributes & V & A & K & R & D) & F). pose proof (proj1 (short_small 48 _ _ D) F) as L.
    rewrite (proj2 (ring_only_iff 48 _ s ltac:(lia)) (conj D L)). cbn [andThen].
    rewrite (proj2 (ring_version_iff 0 _ (alg ++ k ++ attributes)) (ex_intro _ version (conj V eq_refl))). cbn [andThen].
    pose proof (tagged_longer _ _ _ A) as LA. pose proof (tagged_longer _ _ _ K) as LK. rewrite !app_length in L.
    rewrite (proj2 (ring_tlv_iff 48 algorithm (k ++ attributes) _ ltac:(lia))) by (exists alg; split; [exact A|split; [reflexivity|lia]]).
    rewrite str_eqb_refl. rewrite (proj2 (ring_tlv_iff 4 key attributes _ ltac:(lia))) by (exists k; split; [exact K|split; [reflexivity|lia]]).
    destruct R as [->|(a & R)]; [reflexivity|]. rewrite <- (app_nil_r attributes) at 1. rewrite (next_is_tagged 160 160 a attributes [] ltac:(lia) ltac:(lia) R).
    rewrite N.eqb_refl. pose proof (tagged_longer _ _ _ R) as LR.
    rewrite (proj2 (ring_tlv_iff 160 a [] attributes ltac:(lia))); [reflexivity|]. exists attributes. rewrite app_nil_r. split; [exact R|split; [reflexivity|lia]].
Qed.
Lemma whole_bits_iff (s key : str) : whole_bits s = Some key <-> tagged 3 (byte 0 :: key) s /\ small (byte 0 :: key).
Proof.
  unfold whole_bits, tag_bits. split.
  - destruct (ring_only _ s) as [[|u k]|] eqn:D; try discriminate. apply ring_only_iff in D; [|lia]. destruct (N.eqb_spec (code u) 0) as [E|E]; [|discriminate].
    intro H. injection H as ->. replace u with (byte 0) in D; [exact D|]. unfold byte. now rewrite <- E, of_code.
  - intros [T L]. rewrite (proj2 (ring_only_iff 3 _ s ltac:(lia)) (conj T L)). reflexivity.
Qed.
Lemma ec_fields_iff (s key public : str) : short_file s -> ec_key_fields s = Some (key, public) <-> ec_private_key key (Some public) s.
Proof.
  intro F. unfold ec_key_fields, ec_private_key, tag_sequence, tag_octets, tag_context0, tag_context1. split.
  - destruct (ring_only _ s) as [body|] eqn:D; [|discriminate]. cbn [andThen]. apply ring_only_iff in D; [|lia]. destruct D as [D L].
    destruct (ring_version 1 body) as [s1|] eqn:V; [|discriminate]. cbn [andThen]. apply ring_version_iff in V. destruct V as (version & V & ->).
    destruct (ring_tlv _ s1) as [[key' s2]|] eqn:K; [|discriminate]. apply ring_tlv_iff in K; [|lia]. destruct K as (k & K & -> & _).
    destruct (skip_curve s2) as [s3|] eqn:P; [|discriminate]. cbn [andThen].
    destruct (ring_only _ s3) as [bits|] eqn:B; [|discriminate]. cbn [andThen]. apply ring_only_iff in B; [|lia]. destruct B as [B _].
    destruct (whole_bits bits) as [pk|] eqn:W; [|discriminate]. cbn [andThen]. apply whole_bits_iff in W. destruct W as [W _]. intro H. injection H as -> ->.
    assert (X : exists params, s2 = params ++ s3 /\ (params = [] \/ exists id, tagged 6 oid_p256 id /\ tagged 160 id params)).
    { unfold skip_curve, tag_context0 in P. destruct (next_is _ s2); [|exists []; injection P as ->; auto]. destruct (ring_tlv _ s2) as [[id s3']|] eqn:I; [|discriminate].
      destruct (str_eqb id p256_curve_id) eqn:E; [|discriminate]. apply str_eqb_eq in E. injection P as ->. subst id.
      apply ring_tlv_iff in I; [|lia]. destruct I as (x & I & -> & _). exists x. split; [reflexivity|]. right. exists p256_curve_id. split; [now apply curve_id_is|exact I]. }
    destruct X as (params & -> & X). exists version, k, params, s3. split; [exact V|]. split; [exact K|]. split; [exact X|]. split; [eauto|exact D].
  - intros (version & k & params & rest & V & K & P & (bits & B & R) & D). pose proof (proj1 (short_small 48 _ _ D) F) as L.
    rewrite (proj2 (ring_only_iff 48 _ s ltac:(lia)) (conj D L)). cbn [andThen].
    rewrite (proj2 (ring_version_iff 1 _ (k ++ params ++ rest)) (ex_intro _ version (conj V eq_refl))). cbn [andThen].
    pose proof (tagged_longer _ _ _ K) as LK. pose proof (tagged_longer _ _ _ R) as LR. pose proof (tagged_longer _ _ _ B) as LB. rewrite !app_length in L.
    rewrite (proj2 (ring_tlv_iff 4 key (params ++ rest) _ ltac:(lia))) by (exists k; split; [exact K|split; [reflexivity|lia]]).
    assert (X : skip_curve (params ++ rest) = Some rest).
    { unfold skip_curve, tag_context0. destruct P as [->|(id & I & P)].
      - cbn [app]. rewrite <- (app_nil_r rest). rewrite (next_is_tagged 161 160 bits rest [] ltac:(lia) ltac:(lia) R). reflexivity.
      - rewrite (next_is_tagged 160 160 id params rest ltac:(lia) ltac:(lia) P), N.eqb_refl. pose proof (tagged_longer _ _ _ P) as LP.
        rewrite (proj2 (ring_tlv_iff 160 id rest _ ltac:(lia))) by (exists params; split; [exact P|split; [reflexivity|lia]]).
        apply curve_id_is in I. subst id. now rewrite str_eqb_refl. }
    rewrite X. cbn [andThen]. rewrite (proj2 (ring_only_iff 161 bits rest ltac:(lia))) by (split; [exact R|lia]). cbn [andThen].
    rewrite (proj2 (whole_bits_iff bits public)) by (split; [exact B|lia]). reflexivity.
Qed.
Lemma pkcs8_wrapped (key : str) (public : option str) (s : str) : ec_pkcs8 key public s <-> exists inner, wrapped_key p256_algorithm inner s /\ ec_private_key key public inner.
Proof.
  split.
  - intros (version & ec & id & alg & inner & k & attributes & V & E & I & A & P & K & R & D). apply ec_id_is in E. apply curve_id_is in I. subst ec id.
    exists inner. split; [|exact P]. exists version, alg, k, attributes. auto.
  - intros (inner & (version & alg & k & attributes & V & A & K & R & D) & P). exists version, ec_id, p256_curve_id, alg, inner, k, attributes.
    split; [exact V|]. split; [now apply ec_id_is|]. split; [now apply curve_id_is|]. auto.
Qed.
Lemma wrapped_shorter (algorithm key s : str) : wrapped_key algorithm key s -> short_file s -> short_file key.
Proof.
  intros (version & alg & k & attributes & V & A & K & R & D) F. unfold short_file in *. apply tagged_longer in K, D. rewrite !app_length in D. lia.
Qed.
Lemma fields_iff (key public s : str) : (exists inner, unwrap_key p256_algorithm s = Some inner /\ ec_key_fields inner = Some (key, public))
  <-> ec_pkcs8 key (Some public) s /\ short_file s.
Proof.
  rewrite pkcs8_wrapped. split.
  - intros (inner & U & E). apply unwrap_iff in U. destruct U as [U F]. split; [|exact F]. exists inner. split; [exact U|].
    apply ec_fields_iff; [exact (wrapped_shorter _ _ _ U F)|exact E].
  - intros [(inner & U & E) F]. exists inner. split; [now apply unwrap_iff|]. apply ec_fields_iff; [exact (wrapped_shorter _ _ _ U F)|exact E].
Qed.

(** ** Keys *)
Section Keys.
  Context (c : curve) (GC : good_curve c).
  Let CG : curve_group c := good_group c GC.
  Lemma point_bytes_iff (Q : point) (pk : str) : on_curve c Q -> (point_bytes Q = Some pk <-> public_point c pk Q).
  Proof.
    intro O. destruct Q as [[x y]|].
    - pose proof O as (X & Y & _). assert (P : (cv_p c < 2 ^ 256)%Z) by apply CG. rewrite <- two_256_eq in P. cbn [point_bytes]. split.
      + intro H. injection H as <-. exists (be_bytes 32 (Z.to_N x)), (be_bytes 32 (Z.to_N y)), x, y. split; [reflexivity|].
        split; [apply be_bytes_length|]. split; [apply be_bytes_length|]. rewrite !big_endian_of by (fold two_256; lia).
        split; [lia|]. split; [lia|]. now split.
      + intros (xb & yb & x' & y' & -> & Lx & Ly & Ex & Ey & E & _). injection E as -> ->. f_equal. unfold byte. f_equal.
        rewrite <- Lx at 1. rewrite <- Ly. rewrite <- Ex, <- Ey, !N2Z.id, !of_big_endian. reflexivity.
    - split; [discriminate|]. intros (xb & yb & x' & y' & _ & _ & _ & _ & _ & E & _). discriminate.
  Qed.
  Lemma key_ok_iff (key public : str) : ec_key_ok c key public = true <-> ec_pair c key public.
  Proof.
    unfold ec_key_ok, ec_pair. rewrite be_value_spec, !andb_true_iff, Nat.eqb_eq, scalar_iff. set (d := Z.of_N (big_endian key)).
    pose proof (g_in c CG) as [O _].
    assert (M : forall Q, multiple c (Some (cv_gx c, cv_gy c)) (N.to_nat (big_endian key)) Q <-> Q = point_mul c d (generator c)).
    { intro Q. rewrite (multiple_iff c CG) by exact O. unfold generator. rewrite (mul_times c CG) by (try exact O; lia). subst d. now rewrite <- Z_N_nat, N2Z.id. }
    assert (OM : on_curve c (point_mul c d (generator c))) by (unfold generator; rewrite (mul_times c CG) by (try exact O; lia); now apply (times_on c CG)).
    split.
    - intros [[L D] E]. split; [exact L|]. split; [exact D|]. exists (point_mul c d (generator c)). split; [now apply M|].
      destruct (point_bytes _) as [pk|] eqn:B; [|discriminate]. apply str_eqb_eq in E. subst pk. now apply point_bytes_iff.
    - intros (L & D & Q & MQ & P). apply M in MQ. subst Q. split; [now split|]. apply point_bytes_iff in P; [|exact OM]. now rewrite P, str_eqb_refl.
  Qed.
  Lemma ec_read_iff (b key : str) : ring_ec_pkcs8 c b = Some key <-> short_file b /\ exists public, ec_pkcs8 key (Some public) b /\ ec_pair c key public.
  Proof.
    unfold ring_ec_pkcs8. split.
    - destruct (unwrap_key _ b) as [inner|] eqn:U; [|discriminate]. cbn [andThen]. destruct (ec_key_fields inner) as [[k pk]|] eqn:E; [|discriminate].
      cbn [andThen fst snd]. destruct (ec_key_ok c k pk) eqn:O; [|discriminate]. intro H. injection H as ->.
      destruct (proj1 (fields_iff key pk b)) as [P F]; [eauto|]. split; [exact F|]. exists pk. split; [exact P|]. now apply key_ok_iff.
    - intros (F & pk & P & O). destruct (proj2 (fields_iff key pk b) (conj P F)) as (inner & U & E). rewrite U. cbn [andThen]. rewrite E.
      cbn [andThen fst snd]. now rewrite (proj2 (key_ok_iff key pk) O).
  Qed.
  Lemma file_unique (b key key' public public' : str) : short_file b -> ec_pkcs8 key (Some public) b -> ec_pkcs8 key' (Some public') b -> key = key' /\ public = public'.
  Proof.
    intros F P P'. destruct (proj2 (fields_iff _ _ b) (conj P F)) as (inner & U & E). destruct (proj2 (fields_iff _ _ b) (conj P' F)) as (inner' & U' & E').
    split; congruence.
  Qed.
  Lemma one_private (key key' public : str) : ec_pair c key public -> ec_pair c key' public -> key = key'.
  Proof.
    intros (L & D & Q & M & P) (L' & D' & Q' & M' & P'). assert (p0 : (0 < cv_p c)%Z) by (pose proof (cg_p3 c CG); lia).
    apply key_iff in P, P'; [|exact p0|exact p0]. assert (Q' = Q) by congruence. subst Q'.
    pose proof (g_in c CG) as G. pose proof G as [O _]. apply (multiple_iff c CG) in M, M'; [|exact O|exact O]. rewrite M in M'.
    rewrite !(times_zmul c CG) in M' by exact G. apply (zmul_inj c CG) in M'; [|exact G|discriminate].
    apply big_endian_inj; [congruence|]. apply same_small in M'; lia.
  Qed.
  (** Files without the public key, and keys without PKCS#8. *)
  Lemma no_public (key b : str) : ec_pkcs8 key None b -> ring_ec_pkcs8 c b = None.
  Proof.
    intro P. destruct (ring_ec_pkcs8 c b) as [k|] eqn:E; [|reflexivity]. apply ec_read_iff in E. destruct E as (F & pk & P' & _). exfalso.
    apply pkcs8_wrapped in P, P'. destruct P as (inner & W & version & kb & params & rest & V & K & X & -> & D).
    destruct P' as (inner' & W' & version' & kb' & params' & rest' & V' & K' & X' & (bits & B & R) & D').
    assert (I : Some inner = Some inner'). { rewrite <- (proj2 (unwrap_iff _ _ b) (conj W F)). now apply unwrap_iff. }
    injection I as <-. destruct (tagged_prefix 48 _ _ _ _ [] [] ltac:(lia) D D' eq_refl) as [I _].
    destruct (tagged_prefix 2 _ _ _ _ _ _ ltac:(lia) V V' I) as [_ I']. destruct (tagged_prefix 4 _ _ _ _ _ _ ltac:(lia) K K' I') as [_ J].
    rewrite app_nil_r in J. destruct R as (l & _ & ->). destruct X as [->|(id & _ & Y)], X' as [->|(id' & _ & Y')].
    - discriminate J.
    - destruct Y' as (l' & _ & ->). discriminate J.
    - destruct Y as (l' & _ & ->). discriminate J.
    - rewrite <- (app_nil_r params) in J. destruct (tagged_prefix 160 _ _ _ _ _ _ ltac:(lia) Y Y' J) as [_ J']. discriminate J'.
  Qed.
  Lemma no_sec1 (key b : str) (public : option str) : ec_private_key key public b -> ring_ec_pkcs8 c b = None.
  Proof.
    intros (version & kb & params & rest & V & _ & _ & _ & D). destruct (ring_ec_pkcs8 c b) as [k|] eqn:E; [|reflexivity].
    apply ec_read_iff in E. destruct E as (F & pk & P & _). apply pkcs8_wrapped in P. destruct P as (inner & (version' & alg & kb' & attributes & V' & _ & _ & _ & D') & _).
    destruct (tagged_prefix 48 _ _ _ _ [] [] ltac:(lia) D D' eq_refl) as [I _]. destruct (tagged_prefix 2 _ _ _ _ _ _ ltac:(lia) V V' I) as [J _]. discriminate J.
  Qed.
  (** A file for each number. *)
  Lemma tagged_exists (t : N) (v : str) : N.of_nat (List.length v) < 128 -> tagged t v (ascii_of_N t :: ascii_of_N (N.of_nat (List.length v)) :: v).
  Proof. intro L. now apply tagged_short. Qed.
  Lemma file_for (key public : str) : List.length key = 32%nat -> List.length public = 65%nat -> exists b, ec_pkcs8 key (Some public) b /\ short_file b.
  Proof.
    intros L L'. set (n2 := fun t (v : str) => ascii_of_N t :: ascii_of_N (N.of_nat (List.length v)) :: v).
    assert (T : forall t v, N.of_nat (List.length v) < 128 -> tagged t v (n2 t v)) by (intros; now apply tagged_exists).
    assert (Ln : forall t v, List.length (n2 t v) = S (S (List.length v))) by reflexivity.
    set (bits := n2 3 (byte 0 :: public)). set (rest := n2 161 bits). set (kb := n2 4 key). set (v1 := n2 2 [byte 1]).
    set (inner := n2 48 (v1 ++ kb ++ [] ++ rest)). set (wrap := n2 4 inner). set (v0 := n2 2 [byte 0]). set (alg := n2 48 (ec_id ++ p256_curve_id)).
    assert (Lb : List.length bits = 68%nat) by (unfold bits; rewrite Ln; cbn [List.length]; now rewrite L').
    assert (Lr : List.length rest = 70%nat) by (unfold rest; now rewrite Ln, Lb).
    assert (Lk : List.length kb = 34%nat) by (unfold kb; now rewrite Ln, L).
    assert (Li : List.length inner = 109%nat). { unfold inner. rewrite Ln, !app_length, Lk, Lr. reflexivity. }
    assert (Lw : List.length wrap = 111%nat) by (unfold wrap; now rewrite Ln, Li).
    set (body := v0 ++ alg ++ wrap ++ []).
    assert (LB : List.length body = 135%nat). { unfold body. rewrite !app_length, Lw. reflexivity. }
    assert (D : tagged 48 body (ascii_of_N 48 :: [ascii_of_N 129; ascii_of_N 135] ++ body)).
    { exists [ascii_of_N 129; ascii_of_N 135]. split; [|reflexivity]. rewrite LB. change (ascii_of_N 129) with (ascii_of_N (128 + N.of_nat (List.length [ascii_of_N 135]))).
      constructor; [now split|cbn; lia|discriminate|reflexivity]. }
    eexists. split; [|apply (short_small 48 body _ D); rewrite LB; lia].
    exists v0, ec_id, p256_curve_id, alg, inner, wrap, []. split; [apply T; reflexivity|]. split; [now apply ec_id_is|]. split; [now apply curve_id_is|].
    split; [apply T; reflexivity|]. split; [|split; [apply T; rewrite Li; lia|split; [now left|exact D]]].
    exists v1, kb, [], rest. split; [apply T; reflexivity|]. split; [apply T; rewrite L; lia|]. split; [now left|].
    split; [exists bits; split; apply T; [cbn [List.length]; rewrite L'; lia|rewrite Lb; lia]|]. apply T. rewrite !app_length, Lk, Lr. cbn. lia.
  Qed.
  Lemma every_number (d : Z) : (0 < d < cv_n c)%Z -> exists key public b, Z.of_N (big_endian key) = d /\ ec_pair c key public
    /\ ec_pkcs8 key (Some public) b /\ short_file b.
  Proof.
    intro D. assert (Nn : (cv_n c < 2 ^ 256)%Z) by apply CG. rewrite <- two_256_eq in Nn.
    set (key := be_bytes 32 (Z.to_N d)). assert (E : big_endian key = Z.to_N d) by (apply big_endian_of; fold two_256; lia).
    assert (L : List.length key = 32%nat) by apply be_bytes_length.
    pose proof (g_in c CG) as [O OG]. set (Q := times c (Z.to_nat d) (Some (cv_gx c, cv_gy c))).
    assert (M : multiple c (Some (cv_gx c, cv_gy c)) (Z.to_nat d) Q) by (now apply (multiple_iff c CG)).
    assert (NQ : Q <> None).
    { intro F. unfold Q in F. rewrite (times_small c) in F by lia. apply (zmul_none c CG) in F; [|now split|discriminate]. revert F. apply (range_divide c). exact D. }
    destruct (ec_key_exists c GC Q) as [pk P]; [apply (times_on c CG), O|exact NQ|].
    destruct (file_for key pk L) as (b & B & F).
    { destruct P as (xb & yb & x & y & -> & Lx & Ly & _). cbn [List.length]. now rewrite app_length, Lx, Ly. }
    exists key, pk, b. split; [rewrite E; lia|]. split; [|now split]. split; [exact L|]. rewrite E. split; [lia|]. exists Q. split; [|exact P]. now rewrite Z_N_nat.
  Qed.

  (** ** In the crate *)
  Context (rp rq : str -> option (N * N)) (nonces : N -> list Z) (rsa_pkcs8 rsa_der : str -> option str).
  Let cy := rsa_over rp rq (ecdsa_over c ring_ec_number nonces).
  Let rk := ring_keys_over c rsa_pkcs8 rsa_der.
  Lemma pair_keys (key public : str) : ec_pair c key public -> exists Q, ec_keys c ring_ec_number key public (Z.of_N (big_endian key)) Q.
  Proof.
    intros (L & D & Q & M & P). exists Q. unfold ec_keys, ring_ec_number. rewrite be_value_spec. split; [reflexivity|]. split; [exact D|]. split; [exact P|].
    now rewrite <- Z_N_nat, N2Z.id.
  Qed.
  Lemma file_signs (b key public : str) : short_file b -> ec_pkcs8 key (Some public) b -> ec_pair c key public ->
    enough_draws c (Z.of_N (big_endian key)) nonces ->
    exists sg, sign_new_pkcs8 cy rk EcdsaP256Sha256 b = Some sg
      /\ (forall text label, pem_file text label b -> sign_new_pkcs8_pem cy rk EcdsaP256Sha256 text = Some sg)
      /\ forall vf rnd, ring_verifies cy EcdsaP256Sha256 public vf -> matching sg rnd vf.
  Proof.
    intros F P O E. assert (R : ring_ec_pkcs8 c b = Some key) by (apply ec_read_iff; eauto).
    assert (S : sign_new_pkcs8 cy rk EcdsaP256Sha256 b = Some (ring_signer cy EcdsaP256Sha256 key)).
    { unfold sign_new_pkcs8. cbn [rk_pkcs8 rk ring_keys_over rk_ecdsa_pkcs8]. now rewrite R. }
    exists (ring_signer cy EcdsaP256Sha256 key). split; [exact S|]. split.
    - intros text label T. now rewrite (proj1 (load_private cy rk EcdsaP256Sha256 text label b T)).
    - intros vf rnd V. destruct (pair_keys key public O) as (Q & K). apply (ec_texts rp rq c ring_ec_number nonces GC key public _ _ _ Q rnd K E).
      + apply (ring_sign_is cy EcdsaP256Sha256).
      + exact (ring_verifies_is cy EcdsaP256Sha256 public vf V).
  Qed.
  Lemma file_sign_verify (file file' key public oid : str) (r r' : mock) (cf : signing_config) (env : sign_env)
      (vc : verifying_config) (venv : verify_env) (k : http_verifier) :
    ec_pkcs8 key (Some public) file -> sign_new_pkcs8 cy rk EcdsaP256Sha256 file = Some (sc_signature cf) ->
    spki oid public file' -> verify_new_spki_der cy EcdsaP256Sha256 file' = Some k -> In k (vc_keys vc (sc_key_id cf)) ->
    enough_draws c (Z.of_N (big_endian key)) nonces ->
    sys_clock_ok (se_sys env) -> sign mr_client r cf env = Done (r', Ok tt) ->
    sc_label cf = $"sig" -> sc_nonce cf <> Some [] ->
    Forall component_rep (sc_components cf) -> (forall q, In q (sc_components cf) -> ~ signature_header q) ->
    mr_derive r (CHeader $"digest") = Done None -> sc_compute_digest cf = true ->
    sc_digest cf = sha256_digest \/ sc_digest cf = sha512_digest -> vc_digests vc = default_digest_provider ->
    sys_clock_ok (ve_sys venv) -> vc_validate_date vc = false ->
    (forall x, created_at cf (seconds (se_sys env)) = Some x -> (x <= seconds (ve_sys venv))%Z) ->
    (forall x, expires_at cf (seconds (se_sys env)) = Some x -> (seconds (ve_sys venv) <= x)%Z) ->
    (forall q, In q (vc_required vc) -> (exists h, q = CHeader h) /\ In q (sc_components cf) /\ has_value (mr_derive r') q) ->
    verify mr_server r' vc venv = Done (Ok (tt, sc_key_id cf)).
  Proof.
    intros P S Sp V I E. pose proof S as S'. unfold sign_new_pkcs8 in S'. cbn [rk_pkcs8 rk ring_keys_over rk_ecdsa_pkcs8] in S'.
    destruct (ring_ec_pkcs8 c file) as [key'|] eqn:R; [|discriminate]. pose proof R as R'. apply ec_read_iff in R'. destruct R' as (F & public' & P' & O).
    destruct (file_unique _ _ _ _ _ F P P') as [<- <-]. destruct (pair_keys key public O) as (Q & K). intros.
    apply (ec_sign_verify rp rq c ring_ec_number nonces GC rk key public _ Q r r' cf env vc venv k K E); try assumption.
    - apply (rs_pkcs8 _ _ _ _ _ file); [exact R|exact S].
    - apply (rv_spki_der _ _ _ _ file' oid); [exact Sp|exact V].
  Qed.
  Lemma made_iff (b : str) :
    (sign_new_pkcs8 cy rk EcdsaP256Sha256 b <> None <-> short_file b /\ exists key public, ec_pkcs8 key (Some public) b /\ ec_pair c key public)
    /\ forall sg, sign_new_pkcs8 cy rk EcdsaP256Sha256 b = Some sg ->
         exists key public, ec_pkcs8 key (Some public) b /\ ec_pair c key public /\ signs_with cy ECDSA_P256_SHA256 key sg.
  Proof.
    unfold sign_new_pkcs8. cbn [rk_pkcs8 rk ring_keys_over rk_ecdsa_pkcs8]. split; [split|].
    - destruct (ring_ec_pkcs8 c b) as [key|] eqn:R; [|contradiction]. intros _. apply ec_read_iff in R. destruct R as (F & public & P). eauto.
    - intros (F & key & public & P). rewrite (proj2 (ec_read_iff b key)) by eauto. discriminate.
    - intros sg S. destruct (ring_ec_pkcs8 c b) as [key|] eqn:R; [|discriminate]. injection S as <-. apply ec_read_iff in R. destruct R as (F & public & P & O).
      exists key, public. split; [exact P|]. split; [exact O|]. exact (ring_sign_is cy EcdsaP256Sha256 key).
  Qed.
  Lemma not_made (b : str) : ring_ec_pkcs8 c b = None -> sign_new_pkcs8 cy rk EcdsaP256Sha256 b = None
    /\ forall text label, pem_file text label b -> sign_new_pkcs8_pem cy rk EcdsaP256Sha256 text = None.
  Proof.
    intro R. assert (S : sign_new_pkcs8 cy rk EcdsaP256Sha256 b = None). { unfold sign_new_pkcs8. cbn [rk_pkcs8 rk ring_keys_over rk_ecdsa_pkcs8]. now rewrite R. }
    split; [exact S|]. intros text label T. now rewrite (proj1 (load_private cy rk EcdsaP256Sha256 text label b T)).
  Qed.
  Lemma no_public_made (key b : str) : ec_pkcs8 key None b -> sign_new_pkcs8 cy rk EcdsaP256Sha256 b = None
    /\ forall text label, pem_file text label b -> sign_new_pkcs8_pem cy rk EcdsaP256Sha256 text = None.
  Proof. intro P. exact (not_made b (no_public key b P)). Qed.
  Lemma no_sec1_made (key b : str) (public : option str) : ec_private_key key public b -> sign_new_pkcs8 cy rk EcdsaP256Sha256 b = None
    /\ forall text label, pem_file text label b -> sign_new_pkcs8_pem cy rk EcdsaP256Sha256 text = None.
  Proof. intro P. exact (not_made b (no_sec1 key b public P)). Qed.
End Keys.
