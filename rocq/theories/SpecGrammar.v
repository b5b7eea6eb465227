(** The texts read as structured-field values (RFC 8941 section 3), as a grammar: which
    text stands for which value.  Only data types and the relations of Spec.v are used;
    nothing here models code of /repo. *)
From Verif Require Export Spec.

(** ** Maps *)

(** Value of a key in an insertion-ordered map. *)
Fixpoint value_of {A} (key : str) (p : list (str * A)) : option A :=
  match p with
  | [] => None
  | (k, v) :: p' => if list_eq_dec ascii_dec k key then Some v else value_of key p'
  end.
(** The distinct elements of a list, by first occurrence. *)
Definition first_occurrences (l : list str) : list str := rev (nodup (list_eq_dec ascii_dec) (rev l)).
(** [map_of l m]: the map [m] after the assignments [l]: keys in order of first
    assignment, each with the value last assigned. *)
Definition map_of {V} (l m : list (str * V)) : Prop :=
  map fst m = first_occurrences (map fst l) /\ forall k, value_of k m = value_of k (rev l).

(** ** Bare items *)

Definition spaces (n : nat) : str := repeat " "%char n.
Definition minus (neg : bool) : str := if neg then ["-"%char] else [].

(** Six bits of a symbol of the base64 alphabet. *)
Definition sextet_of (c : ascii) (l : list bool) : Prop :=
  List.length l = 6%nat /\ nth_error alphabet (N.to_nat (bits_value l)) = Some c.
(** Base64 as the structured-field reader takes it: groups of two to four symbols padded
    to four characters; left-over bits are ignored. *)
Inductive b64_reads : str -> str -> Prop :=
| b64_none : b64_reads [] []
| b64_group syms sixes bytes rest out :
    (2 <= List.length syms <= 4)%nat -> Forall2 sextet_of syms sixes ->
    Datatypes.S (List.length bytes) = List.length syms ->
    List.concat (map byte_bits bytes) = firstn (8 * List.length bytes) (List.concat sixes) ->
    b64_reads rest out ->
    b64_reads (syms ++ repeat "="%char (4 - List.length syms) ++ rest) (bytes ++ out).

(** Integers of one to fifteen digits; decimals of one to twelve digits, a point and one
    to three digits; strings and tokens as they are printed; byte sequences; booleans. *)
Inductive bare_reads : str -> bare -> Prop :=
| reads_integer neg ds n : (1 <= List.length ds <= 15)%nat -> numeral_value 0 ds = Some n ->
    bare_reads (minus neg ++ ds) (BInteger (if neg then - Z.of_N n else Z.of_N n)%Z)
| reads_decimal neg ip fp n : (1 <= List.length ip <= 12)%nat -> (1 <= List.length fp <= 3)%nat ->
    numeral_value 0 (ip ++ fp) = Some n ->
    bare_reads (minus neg ++ ip ++ ["."%char] ++ fp) (BDecimal (Dec neg n (List.length fp)))
| reads_string s t : string_text s t -> bare_reads t (BString s)
| reads_token s : s <> [] -> token_text s s -> bare_reads s (BToken s)
| reads_bytes t b : b64_reads t b -> bare_reads ([":"%char] ++ t ++ [":"%char]) (BByteSeq b)
| reads_boolean (x : bool) : bare_reads ["?"%char; if x then "1"%char else "0"%char] (BBoolean x).

(** ** Parameters, items, inner lists *)

(** ";key" or ";key=value", with spaces after the semicolon. *)
Inductive parameter_reads : str -> str * bare -> Prop :=
| reads_flag n k : key_rep k -> parameter_reads ([";"%char] ++ spaces n ++ k) (k, BBoolean true)
| reads_value n k t v : key_rep k -> bare_reads t v ->
    parameter_reads ([";"%char] ++ spaces n ++ k ++ ["="%char] ++ t) (k, v).
Definition params_reads (t : str) (p : list (str * bare)) : Prop :=
  exists ts ps, Forall2 parameter_reads ts ps /\ t = List.concat ts /\ map_of ps p.

Definition item_reads (t : str) (i : item) : Prop :=
  exists a b, t = a ++ b /\ bare_reads a (it_bare i) /\ params_reads b (it_params i).

(** Items separated by one or more spaces; spaces at both ends. *)
Inductive items_reads : str -> list item -> Prop :=
| reads_no_items n : items_reads (spaces n) []
| reads_items n t i rest l : item_reads t i -> items_reads rest l ->
    (l = [] \/ exists rest', rest = " "%char :: rest') ->
    items_reads (spaces n ++ t ++ rest) (i :: l).
Definition inner_reads (t : str) (l : inner_list) : Prop :=
  exists body pt, t = ["("%char] ++ body ++ [")"%char] ++ pt
    /\ items_reads body (il_items l) /\ params_reads pt (il_params l).

(** ** Dictionaries *)

(** "key=item", "key=(list)" or "key" (true), the last with parameters. *)
Inductive member_reads : str -> str * list_entry -> Prop :=
| reads_true k t p : key_rep k -> params_reads t p -> member_reads (k ++ t) (k, LEItem (Item (BBoolean true) p))
| reads_item k t i : key_rep k -> item_reads t i -> member_reads (k ++ ["="%char] ++ t) (k, LEItem i)
| reads_inner k t l : key_rep k -> inner_reads t l -> member_reads (k ++ ["="%char] ++ t) (k, LEInner l).

(** Optional white space. *)
Definition white (c : ascii) : Prop := c = " "%char \/ c = "009"%char.

(** Members separated by commas, with white space around the commas and at the end. *)
Inductive members_read : str -> list (str * list_entry) -> Prop :=
| read_last t m w : member_reads t m -> Forall white w -> members_read (t ++ w) [m]
| read_next t m w1 w2 rest ms : member_reads t m -> Forall white w1 -> Forall white w2 -> members_read rest ms ->
    members_read (t ++ w1 ++ [","%char] ++ w2 ++ rest) (m :: ms).

(** A dictionary: spaces, then nothing or members; a repeated key keeps its first
    position and its last value. *)
Definition dictionary_reads (s : str) (d : list (str * list_entry)) : Prop :=
  exists n body ms, s = spaces n ++ body /\ (body = [] /\ ms = [] \/ members_read body ms) /\ map_of ms d.

(** An item alone, with spaces around it. *)
Definition item_field_reads (s : str) (i : item) : Prop :=
  exists n t m, s = spaces n ++ t ++ spaces m /\ item_reads t i.
