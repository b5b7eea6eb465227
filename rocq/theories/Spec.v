(** Small specifications, independent of the model's functions: they use only the
    model's data types (bytes, structured-field values, components) and trait
    records.  Nothing here models code of /repo. *)
From Verif Require Export Str Sfv Http Component Canonicalize.

(** ** Texts *)

(** Lines separated by single LF bytes, none at the end. *)
Fixpoint lines (l : list str) : str :=
  match l with
  | [] => []
  | x :: l' => match l' with [] => x | _ :: _ => x ++ [ch_lf] ++ lines l' end
  end.

(** [digits ds n]: [ds] is the decimal numeral of [n] without superfluous zeros. *)
Definition digit_of (c : ascii) : option N :=
  let n := N_of_ascii c in if ((48 <=? n) && (n <=? 57))%N then Some (n - 48)%N else None.
Fixpoint numeral_value (acc : N) (ds : str) : option N :=
  match ds with
  | [] => Some acc
  | c :: ds' => match digit_of c with Some d => numeral_value (10 * acc + d)%N ds' | None => None end
  end.
Definition digits (ds : str) (n : N) : Prop :=
  ds <> [] /\ numeral_value 0 ds = Some n /\ (forall ds', ds = "0"%char :: ds' -> ds' = []).

(** ** Structured-field text (RFC 8941, section 4.1), as relations *)

(** A string: quoted, with [\] before each quote and backslash; only bytes 32..126. *)
Definition escaped (c : ascii) : str :=
  if Ascii.eqb c """" then ["\"%char; c] else if Ascii.eqb c "\" then ["\"%char; c] else [c].
Definition visible (c : ascii) : Prop := (32 <= N_of_ascii c <= 126)%N.
Definition string_text (s t : str) : Prop :=
  Forall visible s /\ t = [ch_quote] ++ List.concat (map escaped s) ++ [ch_quote].

(** An integer of at most fifteen digits. *)
Definition integer_text (z : Z) (t : str) : Prop :=
  (- 999999999999999 <= z <= 999999999999999)%Z
  /\ exists ds, digits ds (Z.abs_N z) /\ t = if (z <? 0)%Z then "-"%char :: ds else ds.

(** A decimal: rounded to three places (ties to even), at most twelve integer digits
    and one to three fraction digits that spell the rounded value.  The value of a
    decimal with scale [s] is its mantissa in units of 1/10^s. *)
Definition rounds_to (d : decimal) (m : N) (s : nat) : Prop :=
  if (d_scale d <=? 3)%nat then m = d_mant d /\ s = d_scale d
  else s = 3%nat /\
       let u := (10 ^ N.of_nat (d_scale d - 3))%N in
       (* [m] is nearest to mant/u, and even in a tie *)
       (2 * (m * u) <= 2 * d_mant d + u /\ 2 * d_mant d <= 2 * (m * u) + u)%N
       /\ ((2 * (m * u) = 2 * d_mant d + u \/ 2 * d_mant d = 2 * (m * u) + u)%N -> N.Even m).
Definition decimal_text (d : decimal) (t : str) : Prop :=
  exists m s ip fp i f,
    rounds_to d m s /\ digits ip i /\ (i < 10 ^ 12)%N
    /\ numeral_value 0 fp = Some f
    /\ (m = i * 10 ^ N.of_nat s + f /\ f < 10 ^ N.of_nat s)%N
    /\ List.length fp = (if (f =? 0)%N then 1%nat else s)
    /\ t = (if d_neg d then ["-"%char] else []) ++ ip ++ ["."%char] ++ fp.

(** Tokens and keys are printed as they are. *)
Definition letter (c : ascii) : Prop := (65 <= N_of_ascii c <= 90 \/ 97 <= N_of_ascii c <= 122)%N.
Definition lowercase (c : ascii) : Prop := (97 <= N_of_ascii c <= 122)%N.
Definition digit (c : ascii) : Prop := (48 <= N_of_ascii c <= 57)%N.
Definition one_of (s : string) (c : ascii) : Prop := In c (list_ascii_of_string s).
Definition tchar (c : ascii) : Prop := letter c \/ digit c \/ one_of "!#$%&'*+-.^_`|~" c.
Definition token_text (s t : str) : Prop :=
  Forall (fun c => tchar c \/ one_of ":/" c) s
  /\ (forall c s', s = c :: s' -> letter c \/ c = "*"%char) /\ t = s.
Definition key_text (k t : str) : Prop :=
  Forall (fun c => lowercase c \/ digit c \/ one_of "_-*." c) k
  /\ (forall c k', k = c :: k' -> lowercase c \/ c = "*"%char) /\ t = k.

(** Byte sequences: base64 between colons.  [b64_bits] is RFC 4648 at the level of
    bits: six bits per symbol, most significant first, zero-padded, then "=" up to
    a multiple of four symbols. *)
Definition byte_bits (c : ascii) : list bool :=
  match c with Ascii b0 b1 b2 b3 b4 b5 b6 b7 => [b7; b6; b5; b4; b3; b2; b1; b0] end.
Definition bits_value (l : list bool) : N := fold_left (fun a (b : bool) => (2 * a + if b then 1 else 0)%N) l 0%N.
Definition alphabet : str := $"ABCDEFGHIJKLMNOPQRSTUVWXYZabcdefghijklmnopqrstuvwxyz0123456789+/".
Fixpoint sextets (l : list bool) : list (list bool) :=
  match l with
  | a :: b :: c :: d :: e :: f :: l' => [a; b; c; d; e; f] :: sextets l'
  | [] => []
  | _ => [firstn 6 (l ++ [false; false; false; false; false])]
  end.
Definition b64_bits (s : str) : str :=
  let syms := map (fun x => nth (N.to_nat (bits_value x)) alphabet "?"%char) (sextets (List.concat (map byte_bits s))) in
  syms ++ repeat "="%char ((4 - List.length syms mod 4) mod 4).
Definition bytes_text (b t : str) : Prop := t = [":"%char] ++ b64_bits b ++ [":"%char].

Definition bare_text (b : bare) (t : str) : Prop :=
  match b with
  | BDecimal d => decimal_text d t
  | BInteger z => integer_text z t
  | BString s => string_text s t
  | BByteSeq s => bytes_text s t
  | BBoolean x => t = ["?"%char; if x then "1"%char else "0"%char]
  | BToken s => token_text s t
  end.

(** Parameters: [;key=value] each, [;key] for a true boolean. *)
Inductive params_text : list (str * bare) -> str -> Prop :=
| pt_nil : params_text [] []
| pt_true k p kt pt : key_text k kt -> params_text p pt ->
    params_text ((k, BBoolean true) :: p) ([";"%char] ++ kt ++ pt)
| pt_value k v p kt vt pt : v <> BBoolean true -> key_text k kt -> bare_text v vt -> params_text p pt ->
    params_text ((k, v) :: p) ([";"%char] ++ kt ++ ["="%char] ++ vt ++ pt).

Definition item_text (i : item) (t : str) : Prop :=
  exists a b, bare_text (it_bare i) a /\ params_text (it_params i) b /\ t = a ++ b.

(** An inner list: items separated by single spaces, in parentheses, then its
    parameters. *)
Fixpoint spaced (l : list str) : str :=
  match l with
  | [] => []
  | x :: l' => match l' with [] => x | _ :: _ => x ++ [" "%char] ++ spaced l' end
  end.
Definition inner_text (items : list item) (p : list (str * bare)) (t : str) : Prop :=
  exists its pt, Forall2 item_text items its /\ params_text p pt
                 /\ t = ["("%char] ++ spaced its ++ [")"%char] ++ pt.

(** ** The signature base (draft-ietf-httpbis-message-signatures, section 2.3) *)

(** The identifier of a component at the start of its line. *)
Definition identifier_text (c : component) (t : str) : Prop :=
  match c with
  | CHeader h => t = [ch_quote] ++ h ++ [ch_quote]
  | CDerived d => item_text (dc_item d) t
  end.
(** The component as an item of the list of covered components. *)
Definition component_item (c : component) : item :=
  match c with CHeader h => Item (BString h) [] | CDerived d => dc_item d end.

(** [signature_base derive cs p base]: [base] is the signature base of the components
    [cs] and parameters [p] when the values are given by [derive]. *)
Definition signature_base (derive : component -> outcome (option str))
    (cs : list component) (p : list (str * bare)) (base : str) : Prop :=
  exists ids vals sp,
    Forall2 identifier_text cs ids
    /\ Forall2 (fun c v => derive c = Done (Some v)) cs vals
    /\ inner_text (map component_item cs) p sp
    /\ base = lines (map (fun iv => fst iv ++ [":"%char; " "%char] ++ snd iv) (combine ids vals)
                     ++ [s2b """@signature-params"": " ++ sp]).

(** ** Equality of structured-field values: decimals by value, the rest literally *)
Definition same_decimal (a b : decimal) : Prop :=
  d_neg a = d_neg b /\ (d_mant a * 10 ^ N.of_nat (d_scale b) = d_mant b * 10 ^ N.of_nat (d_scale a))%N.
Definition same_bare (a b : bare) : Prop :=
  match a, b with BDecimal x, BDecimal y => same_decimal x y | BDecimal _, _ | _, BDecimal _ => False | _, _ => a = b end.
Definition same_params (p q : list (str * bare)) : Prop :=
  Forall2 (fun x y => fst x = fst y /\ same_bare (snd x) (snd y)) p q.
Definition same_item (i j : item) : Prop := same_bare (it_bare i) (it_bare j) /\ same_params (it_params i) (it_params j).
Definition same_component (a b : component) : Prop :=
  match a, b with
  | CHeader x, CHeader y => x = y
  | CDerived x, CDerived y => same_item (dc_item x) (dc_item y)
  | _, _ => False
  end.

(** ** Representable values (RFC 8941 section 3) *)
Definition bare_rep (b : bare) : Prop :=
  match b with
  | BDecimal d => (d_scale d <= 3)%nat /\ (d_mant d < 10 ^ (12 + N.of_nat (d_scale d)))%N
  | BInteger z => (- 999999999999999 <= z <= 999999999999999)%Z
  | BString s => Forall visible s
  | BByteSeq _ => True
  | BBoolean _ => True
  | BToken s => s <> [] /\ token_text s s
  end.
Definition key_rep (k : str) : Prop := k <> [] /\ key_text k k.
Definition params_rep (p : list (str * bare)) : Prop :=
  NoDup (map fst p) /\ Forall (fun kv => key_rep (fst kv) /\ bare_rep (snd kv)) p.
(** A header name: one to 65535 token characters, none upper case.  A derived
    component: a string item whose value starts with "@". *)
Definition header_name (h : str) : Prop :=
  h <> [] /\ (N.of_nat (List.length h) <= 65535)%N
  /\ Forall (fun c => tchar c /\ ~ (65 <= N_of_ascii c <= 90)%N) h.
Definition component_rep (c : component) : Prop :=
  match c with
  | CHeader h => header_name h
  | CDerived d => exists n, it_bare (dc_item d) = BString ("@"%char :: n) /\ Forall visible n
                            /\ params_rep (it_params (dc_item d))
  end.

(** A representable configuration: a usable label, and representable components and
    parameters. *)
Definition config_rep (cfg : canon_config) : Prop :=
  key_rep (cc_get_label cfg) /\ Forall component_rep (cc_components cfg) /\ params_rep (cc_params cfg).

(** The components without a value, in order, with multiplicity. *)
Definition is_none {A} (o : option A) : bool := match o with None => true | Some _ => false end.
Definition lacking {A B} (l : list (A * option B)) : list A :=
  map fst (filter (fun ab => is_none (snd ab)) l).

(** The number of line feeds of a text. *)
Definition lf_count (s : str) : nat := count_occ ascii_dec s ch_lf.
