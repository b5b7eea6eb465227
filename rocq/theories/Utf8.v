(** UTF-8: [str::from_utf8] validity and [String::from_utf8_lossy] (std), used by
    [form_urlencoded] (called through [Url::query_pairs], src/derived.rs:117) and
    by [BufRead::read_line] (httpsig-validator/src/mock_request.rs:121,140). *)
From Verif Require Export Str.
Local Open Scope N_scope.

(** A continuation byte. *)
Definition is_cont (c : ascii) : bool := in_range 128 191 c.

(** Outcome of decoding one character at the head of [s]:
    - [UChar n]: a valid sequence of [n] bytes;
    - [UBad n]: the maximal invalid prefix has [n] bytes (1..3), replaced by one
      U+FFFD by the lossy decoder (std's [Utf8Chunks]). *)
Inductive utf8_step := UChar (n : nat) | UBad (n : nat).

(** The ranges of Unicode table 3-7 for the second byte. *)
Definition second_ok (a b : ascii) : bool :=
  let x := code a in
  if x =? 224 then in_range 160 191 b
  else if x =? 237 then in_range 128 159 b
  else if x =? 240 then in_range 144 191 b
  else if x =? 244 then in_range 128 143 b
  else is_cont b.

(** Decodes one character: first byte [a], remaining input [r]. *)
Definition utf8_head (a : ascii) (r : str) : utf8_step :=
  if is_ascii_byte a then UChar 1
  else if in_range 194 223 a then
    match r with b :: _ => if is_cont b then UChar 2 else UBad 1 | [] => UBad 1 end
  else if in_range 224 239 a then
    match r with
    | b :: r1 =>
        if second_ok a b then
          match r1 with c :: _ => if is_cont c then UChar 3 else UBad 2 | [] => UBad 2 end
        else UBad 1
    | [] => UBad 1
    end
  else if in_range 240 244 a then
    match r with
    | b :: r1 =>
        if second_ok a b then
          match r1 with
          | c :: r2 =>
              if is_cont c then
                match r2 with d :: _ => if is_cont d then UChar 4 else UBad 3 | [] => UBad 3 end
              else UBad 2
          | [] => UBad 2
          end
        else UBad 1
    | [] => UBad 1
    end
  else UBad 1.

(** U+FFFD in UTF-8. *)
Definition replacement : str := [ascii_of_N 239; ascii_of_N 191; ascii_of_N 189].

(** [String::from_utf8_lossy] (fuel: one step consumes at least one byte). *)
Fixpoint lossy_fuel (fuel : nat) (s : str) : str :=
  match fuel with
  | O => []
  | S f =>
      match s with
      | [] => []
      | a :: r =>
          match utf8_head a r with
          | UChar n => firstn n s ++ lossy_fuel f (skipn n s)
          | UBad n => replacement ++ lossy_fuel f (skipn n s)
          end
      end
  end.
Definition from_utf8_lossy (s : str) : str := lossy_fuel (List.length s) s.

(** [str::from_utf8(..).is_ok()]. *)
Fixpoint valid_fuel (fuel : nat) (s : str) : bool :=
  match fuel with
  | O => match s with [] => true | _ => false end
  | S f =>
      match s with
      | [] => true
      | a :: r =>
          match utf8_head a r with
          | UChar n => valid_fuel f (skipn n s)
          | UBad _ => false
          end
      end
  end.
Definition utf8_valid (s : str) : bool := valid_fuel (List.length s) s.
