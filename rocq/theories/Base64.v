(** The base64 codec: [base64] crate 0.21, [general_purpose::STANDARD]
    (called at src/algorithm.rs:72,80,103,112; src/algorithm/ring.rs:95,103,195,204;
    src/algorithm/openssl.rs:85,93), and the codec the [sfv] crate uses for
    byte sequences.  Dependencies, modelled from their documentation. *)
From Verif Require Export Str.
Local Open Scope N_scope.

(** Alphabet [A-Za-z0-9+/]. *)
Definition b64_sym (v : N) : ascii :=
  ascii_of_N (if v <? 26 then 65 + v
              else if v <? 52 then 97 + (v - 26)
              else if v <? 62 then 48 + (v - 52)
              else if v =? 62 then 43 else 47).

(** The value of a symbol of the alphabet. *)
Definition b64_val (c : ascii) : option N :=
  if is_upper c then Some (code c - 65)
  else if is_lower c then Some (code c - 97 + 26)
  else if is_digit c then Some (code c - 48 + 52)
  else if code c =? 43 then Some 62
  else if code c =? 47 then Some 63
  else None.

(** The padding character. *)
Definition b64_pad : ascii := "="%char.

(** [STANDARD.encode]: canonical padding, no line breaks. *)
Fixpoint b64_encode (s : str) : str :=
  match s with
  | [] => []
  | [a] => let a := code a in
           [b64_sym (a / 4); b64_sym ((a mod 4) * 16); b64_pad; b64_pad]
  | [a; b] => let a := code a in let b := code b in
           [b64_sym (a / 4); b64_sym ((a mod 4) * 16 + b / 16); b64_sym ((b mod 16) * 4); b64_pad]
  | a :: b :: c :: r =>
      let a := code a in let b := code b in let c := code c in
      b64_sym (a / 4) :: b64_sym ((a mod 4) * 16 + b / 16)
      :: b64_sym ((b mod 16) * 4 + c / 64) :: b64_sym (c mod 64) :: b64_encode r
  end.

(** One quad without padding: three bytes. *)
Definition quad3 (w x y z : N) : str :=
  [ascii_of_N (w * 4 + x / 16); ascii_of_N ((x mod 16) * 16 + y / 4); ascii_of_N ((y mod 4) * 64 + z)].

(** A quad that may be padded.  [strict]: bits not covered by the output must
    be zero ([decode_allow_trailing_bits = false]). *)
Definition b64_quad (strict : bool) (a b c d : ascii) : option str :=
  match b64_val a, b64_val b with
  | Some w, Some x =>
      if Ascii.eqb d b64_pad then
        if Ascii.eqb c b64_pad then
          if strict && negb (x mod 16 =? 0) then None
          else Some [ascii_of_N (w * 4 + x / 16)]
        else match b64_val c with
             | Some y =>
                 if strict && negb (y mod 4 =? 0) then None
                 else Some [ascii_of_N (w * 4 + x / 16); ascii_of_N ((x mod 16) * 16 + y / 4)]
             | None => None
             end
      else match b64_val c, b64_val d with
           | Some y, Some z => Some (quad3 w x y z)
           | _, _ => None
           end
  | _, _ => None
  end.

(** [STANDARD.decode]: length a multiple of four, canonical padding in the last
    quad only, zero trailing bits; anything else is an error. *)
Fixpoint b64_decode (s : str) : option str :=
  match s with
  | [] => Some []
  | a :: b :: c :: d :: [] => b64_quad true a b c d
  | a :: b :: c :: d :: r =>
      match b64_val a, b64_val b, b64_val c, b64_val d with
      | Some w, Some x, Some y, Some z =>
          match b64_decode r with
          | Some t => Some (quad3 w x y z ++ t)
          | None => None
          end
      | _, _, _, _ => None
      end
  | _ => None
  end.

(** The decoder of sfv 0.9 ([data_encoding] specification with padding '=' and
    [check_trailing_bits = false]): trailing bits are ignored and every quad may
    be padded (concatenated padded blocks are accepted). *)
Fixpoint sfv_b64_decode (s : str) : option str :=
  match s with
  | [] => Some []
  | a :: b :: c :: d :: r =>
      match b64_quad false a b c d, sfv_b64_decode r with
      | Some q, Some t => Some (q ++ t)
      | _, _ => None
      end
  | _ => None
  end.
