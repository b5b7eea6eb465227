(** Query strings: form decoding and UTF-8, as relations.  Nothing here models code. *)
From Verif Require Export SpecVerify Mock Reqwest.

(** ** UTF-8 (Unicode 15, section 3.9) *)
(** Unicode scalar values; their encoding is [utf8_bytes] of SpecTrim.v. *)
Definition scalar (n : N) : Prop := (n < 0xD800 \/ 0xE000 <= n <= 0x10FFFF)%N.
(** One character. *)
Definition utf8_char (s : str) : Prop := exists n, scalar n /\ map N_of_ascii s = utf8_bytes n.
(** Text: a sequence of characters. *)
Definition utf8_text (s : str) : Prop := exists l, Forall utf8_char l /\ s = List.concat l.
(** The beginning of a character. *)
Definition utf8_start (s : str) : Prop := exists t, t <> [] /\ utf8_char (s ++ t).

(** Lossy decoding: each ill-formed part becomes U+FFFD.  An ill-formed part is the
    longest text that begins a character without completing it, or else one byte. *)
Definition u_fffd : str := ["239"; "191"; "189"]%char.
Inductive lossy_text : str -> str -> Prop :=
| lossy_nil : lossy_text [] []
| lossy_char c s t : utf8_char c -> lossy_text s t -> lossy_text (c ++ s) (c ++ t)
| lossy_bad b s t : b <> [] -> utf8_start b \/ List.length b = 1%nat ->
    (forall c s', b ++ s = c ++ s' -> ~ utf8_char c) ->
    (forall x s', s = x :: s' -> ~ utf8_start (b ++ [x])) ->
    lossy_text s t -> lossy_text (b ++ s) (u_fffd ++ t).

(** ** application/x-www-form-urlencoded *)
Definition hex_digit (c : ascii) (v : N) : Prop :=
  (48 <= N_of_ascii c <= 57 /\ v = N_of_ascii c - 48
   \/ 65 <= N_of_ascii c <= 70 /\ v = N_of_ascii c - 55
   \/ 97 <= N_of_ascii c <= 102 /\ v = N_of_ascii c - 87)%N.
(** "+" is a space, "%XY" the byte XY; anything else stands for itself. *)
Inductive unescaped : str -> str -> Prop :=
| un_nil : unescaped [] []
| un_plus s d : unescaped s d -> unescaped ("+"%char :: s) (" "%char :: d)
| un_hex h l x y c s d : hex_digit h x -> hex_digit l y -> N_of_ascii c = (16 * x + y)%N ->
    unescaped s d -> unescaped ("%"%char :: h :: l :: s) (c :: d)
| un_other c s d : c <> "+"%char ->
    ~ (c = "%"%char /\ exists h l s' x y, s = h :: l :: s' /\ hex_digit h x /\ hex_digit l y) ->
    unescaped s d -> unescaped (c :: s) (c :: d).
Definition form_value (s v : str) : Prop := exists d, unescaped s d /\ lossy_text d v.

(** A piece of a query: "name=value" or "name". *)
Inductive query_piece : str -> str * str -> Prop :=
| piece_value k v k' v' : ~ In "="%char k -> form_value k k' -> form_value v v' -> query_piece (k ++ "="%char :: v) (k', v')
| piece_name k k' : ~ In "="%char k -> form_value k k' -> query_piece k (k', []).
Fixpoint ampersands (l : list str) : str :=
  match l with
  | [] => []
  | x :: l' => match l' with [] => x | _ :: _ => x ++ ["&"%char] ++ ampersands l' end
  end.
(** The parameters of a query: one for each non-empty piece. *)
Definition not_empty (s : str) : bool := match s with [] => false | _ :: _ => true end.
Definition query_params (q : str) (ps : list (str * str)) : Prop :=
  exists pieces, q = ampersands pieces /\ Forall (fun p => ~ In "&"%char p) pieces
                 /\ Forall2 query_piece (filter not_empty pieces) ps.

(** The values of the parameters with a name. *)
Definition values_named (n : str) (ps : list (str * str)) : list str :=
  map snd (filter (fun p => if list_eq_dec ascii_dec (fst p) n then true else false) ps).

(** The encoder of the URL standard. *)
Definition hex_upper (v : N) : ascii := ascii_of_N (if (v <? 10)%N then 48 + v else 55 + v).
Definition form_byte (c : ascii) : str :=
  let n := N_of_ascii c in
  if Ascii.eqb c " " then $"+"
  else if ((48 <=? n) && (n <=? 57) || (65 <=? n) && (n <=? 90) || (97 <=? n) && (n <=? 122))%N
          || existsb (Ascii.eqb c) $"*-._" then [c]
  else ["%"%char; hex_upper (n / 16); hex_upper (n mod 16)].
Definition form_text (s : str) : str := List.concat (map form_byte s).
Definition form_query (ps : list (str * str)) : str :=
  ampersands (map (fun p => form_text (fst p) ++ ["="%char] ++ form_text (snd p)) ps).

(** The component [@query-params;name="n"]. *)
Definition query_params_of (n : str) : component :=
  CDerived (Derived (Item (BString $"@query-params") [($"name", BString n)])).
(** The query of a URL ("" when there is none). *)
Definition url_query (u : url) : str := match u_query u with Some q => q | None => [] end.
