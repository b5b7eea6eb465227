(** Byte strings and the parts of the Rust standard library the crate uses on
    [String]/[&str]/[&[u8]].

    A Rust [String] is a sequence of UTF-8 bytes; both [String] and [Vec<u8>]
    are modelled as [str := list ascii] (an [ascii] is one byte).  Nothing in
    this file comes from /repo: it models std functions; each definition cites
    the place in /repo where that function is called. *)
From Coq Require Export List Ascii String NArith ZArith Bool Lia.
Export ListNotations.
Open Scope list_scope.
Open Scope bool_scope.

(** [String], [&str] and [Vec<u8>]: the bytes (used throughout /repo). *)
Definition str : Set := list ascii.

(** String literals: [$"abc"]. *)
Definition s2b (s : string) : str := list_ascii_of_string s.
Notation "$ s" := (s2b s%string) (at level 0, s at level 0, format "$ s").

(** ** Bytes *)

(** [u8] as a number, and range patterns. *)
Definition code (c : ascii) : N := N_of_ascii c.
Definition in_range (lo hi : N) (c : ascii) : bool := (lo <=? code c)%N && (code c <=? hi)%N.

(** Line feed (src/canonicalize.rs:234, src/derived.rs:124), double quote, backslash. *)
Definition ch_lf : ascii := "010"%char.
Definition ch_quote : ascii := """"%char.
Definition ch_bslash : ascii := "\"%char.

(** [char::is_ascii_digit] etc. (std). *)
Definition is_digit (c : ascii) : bool := in_range 48 57 c.
Definition is_lower (c : ascii) : bool := in_range 97 122 c.
Definition is_upper (c : ascii) : bool := in_range 65 90 c.
Definition is_alpha (c : ascii) : bool := is_lower c || is_upper c.
Definition is_ascii_byte (c : ascii) : bool := (code c <? 128)%N.

(** [str::is_ascii]. *)
Definition is_ascii (s : str) : bool := forallb is_ascii_byte s.

(** [u8::to_ascii_lowercase], [u8::to_ascii_uppercase]. *)
Definition to_lower (c : ascii) : ascii := if is_upper c then ascii_of_N (code c + 32) else c.
Definition to_upper (c : ascii) : ascii := if is_lower c then ascii_of_N (code c - 32) else c.

(** [str::to_ascii_uppercase] (src/verifying.rs:120). *)
Definition to_ascii_uppercase (s : str) : str := map to_upper s.

(** ** Equality and order *)

(** [==] on strings and bytes ([eq], [ct_eq]; src/verifying.rs:420,595). *)
Fixpoint str_eqb (a b : str) : bool :=
  match a, b with
  | [], [] => true
  | x :: a', y :: b' => Ascii.eqb x y && str_eqb a' b'
  | _, _ => false
  end.

(** [String::cmp] / [[u8]::cmp]: lexicographic on bytes
    (src/signature_component.rs:69, src/derived.rs:145). *)
Fixpoint str_cmp (a b : str) : comparison :=
  match a, b with
  | [], [] => Eq
  | [], _ :: _ => Lt
  | _ :: _, [] => Gt
  | x :: a', y :: b' =>
      match (code x ?= code y)%N with
      | Eq => str_cmp a' b'
      | c => c
      end
  end.

(** ** Searching and splitting *)

(** [str::starts_with] (src/signature_component.rs:57,94; src/derived.rs:191). *)
Fixpoint starts_with (p s : str) : bool :=
  match p, s with
  | [], _ => true
  | x :: p', y :: s' => Ascii.eqb x y && starts_with p' s'
  | _ :: _, [] => false
  end.

(** [str::split_once(c)]: split at the first occurrence of [c]
    (src/verifying.rs:369).  [splitn(2, c)] with two [next()?] calls
    (src/verifying.rs:578-580, mock_request.rs:147-151) is the same function. *)
Fixpoint split_once (c : ascii) (s : str) : option (str * str) :=
  match s with
  | [] => None
  | x :: s' =>
      if Ascii.eqb x c then Some ([], s')
      else match split_once c s' with
           | Some (a, b) => Some (x :: a, b)
           | None => None
           end
  end.

(** [str::split(c)]: always at least one piece (src/verifying.rs:576). *)
Fixpoint split (c : ascii) (s : str) : list str :=
  match s with
  | [] => [[]]
  | x :: s' =>
      if Ascii.eqb x c then [] :: split c s'
      else match split c s' with
           | [] => [[x]]            (* unreachable: [split] is never empty *)
           | p :: ps => (x :: p) :: ps
           end
  end.

(** [[String]::join(sep)] (src/canonicalize.rs:234, src/derived.rs:124). *)
Fixpoint join (sep : str) (l : list str) : str :=
  match l with
  | [] => []
  | [x] => x
  | x :: l' => x ++ sep ++ join sep l'
  end.

(** ** Trimming *)

(** [Iterator::skip_while] and [take_while] on bytes; no code of its own. *)
Fixpoint drop_while (f : ascii -> bool) (s : str) : str :=
  match s with
  | [] => []
  | x :: s' => if f x then drop_while f s' else s
  end.

(** The bytes [drop_while] drops. *)
Fixpoint take_while (f : ascii -> bool) (s : str) : str :=
  match s with
  | [] => []
  | x :: s' => if f x then x :: take_while f s' else []
  end.

(** [str::trim_matches(c)] for one character (src/verifying.rs:373). *)
Definition trim_matches (c : ascii) (s : str) : str :=
  rev (drop_while (Ascii.eqb c) (rev (drop_while (Ascii.eqb c) s))).

(** [char::is_whitespace] (Unicode [White_Space]) on UTF-8 text.  [ws_head s]
    is the text after one leading white-space character, if there is one.
    White space: U+0009..000D, U+0020, U+0085, U+00A0, U+1680, U+2000..200A,
    U+2028, U+2029, U+202F, U+205F, U+3000. *)
Definition ws1 (a : ascii) : bool := in_range 9 13 a || (code a =? 32)%N.
Definition ws2 (a b : ascii) : bool := (code a =? 194)%N && ((code b =? 133)%N || (code b =? 160)%N).
Definition ws3 (a b c : ascii) : bool :=
  ((code a =? 225)%N && (code b =? 154)%N && (code c =? 128)%N)
  || ((code a =? 226)%N && (code b =? 128)%N && (in_range 128 138 c || (code c =? 168)%N || (code c =? 169)%N || (code c =? 175)%N))
  || ((code a =? 226)%N && (code b =? 129)%N && (code c =? 159)%N)
  || ((code a =? 227)%N && (code b =? 128)%N && (code c =? 128)%N).

(** [str::trim_start]: drops leading white space, character by character. *)
Fixpoint trim_start (s : str) : str :=
  match s with
  | a :: s1 =>
      if ws1 a then trim_start s1
      else match s1 with
           | b :: s2 =>
               if ws2 a b then trim_start s2
               else match s2 with
                    | c :: s3 => if ws3 a b c then trim_start s3 else s
                    | [] => s
                    end
           | [] => s
           end
  | [] => []
  end.

(** The same from the end, on the reversed text. *)
Fixpoint trim_start_rev (s : str) : str :=
  match s with
  | a :: s1 =>
      if ws1 a then trim_start_rev s1
      else match s1 with
           | b :: s2 =>
               if ws2 b a then trim_start_rev s2
               else match s2 with
                    | c :: s3 => if ws3 c b a then trim_start_rev s3 else s
                    | [] => s
                    end
           | [] => s
           end
  | [] => []
  end.

(** [str::trim] (src/verifying.rs:579-580, mock_request.rs:143-151). *)
Definition trim (s : str) : str := rev (trim_start_rev (rev (trim_start s))).

(** [u8::is_ascii_whitespace]: space, tab, LF, FF, CR (not VT). *)
Definition is_ascii_ws (c : ascii) : bool :=
  (code c =? 32)%N || (code c =? 9)%N || (code c =? 10)%N || (code c =? 12)%N || (code c =? 13)%N.

(** [str::split_ascii_whitespace] (main.rs:84, mock_request.rs:122):
    the maximal runs of non-white-space bytes. *)
Fixpoint split_ws_aux (s : str) (cur : str) : list str :=
  match s with
  | [] => match cur with [] => [] | _ => [rev cur] end
  | x :: s' =>
      if is_ascii_ws x
      then match cur with [] => split_ws_aux s' [] | _ => rev cur :: split_ws_aux s' [] end
      else split_ws_aux s' (x :: cur)
  end.
Definition split_ascii_whitespace (s : str) : list str := split_ws_aux s [].

(** ** Decimal numbers *)

(** Digits and their values. *)
Definition digit_char (d : N) : ascii := ascii_of_N (48 + d).
Definition digit_val (c : ascii) : N := (code c - 48)%N.

(** Digits of [n], most significant first ([u64::to_string]). *)
Fixpoint dec_fuel (fuel : nat) (n : N) (acc : str) : str :=
  match fuel with
  | O => acc
  | S f =>
      let acc' := digit_char (n mod 10) :: acc in
      if (n / 10 =? 0)%N then acc' else dec_fuel f (n / 10) acc'
  end.
Definition dec_of_N (n : N) : str := dec_fuel (S (N.size_nat n)) n [].

(** [i64::to_string] (used by the sfv serializer). *)
Definition dec_of_Z (z : Z) : str :=
  if (z <? 0)%Z then "-"%char :: dec_of_N (Z.to_N (- z)) else dec_of_N (Z.to_N z).

(** Value of a digit string ([str::parse::<i64>] on digits only, no overflow
    check: callers bound the length). *)
Definition val_of_dec (s : str) : N := fold_left (fun a c => 10 * a + digit_val c)%N s 0%N.

(** 64-bit integers: [as i64] of a non-negative count and [i64::saturating_add]
    (src/signing.rs:62,429). *)
Definition i64_min : Z := (- 2 ^ 63)%Z.
Definition i64_max : Z := (2 ^ 63 - 1)%Z.
Definition as_i64 (z : Z) : Z := ((z + 2 ^ 63) mod 2 ^ 64 - 2 ^ 63)%Z.
Definition saturating_add (a b : Z) : Z := Z.max i64_min (Z.min i64_max (a + b)).

(** ** Outcomes

    Rust's [Result] stays data; a panic is an explicit outcome. *)
Inductive result (A E : Type) : Type := Ok (a : A) | Err (e : E).
Arguments Ok {A E}. Arguments Err {A E}.

(** The result of code that may panic ([unwrap], [expect], indexing). *)
Inductive outcome (A : Type) : Type := Done (a : A) | Panic.
Arguments Done {A}. Arguments Panic {A}.

(** Sequencing: a panic ends the computation. *)
Definition obind {A B} (x : outcome A) (f : A -> outcome B) : outcome B :=
  match x with Done a => f a | Panic => Panic end.
Notation "'do' x <- e ; f" := (obind e (fun x => f))
  (at level 200, x pattern, e at level 100, f at level 200, right associativity).

(** The [?] operator on [Result]. *)
Definition rbind {A B E} (x : result A E) (f : A -> result B E) : result B E :=
  match x with Ok a => f a | Err e => Err e end.
Notation "'try' x <- e ; f" := (rbind e (fun x => f))
  (at level 200, x pattern, e at level 100, f at level 200, right associativity).

(** [.unwrap()]/[.expect()] on an option. *)
Definition unwrap {A} (x : option A) : outcome A :=
  match x with Some a => Done a | None => Panic end.
