(** Structured field values: the data types, parser and serializer of the [sfv]
    crate 0.9 (RFC 8941) that the crate builds on (Cargo.toml "sfv = 0.9"; called at
    src/derived.rs:195,203; src/signature_input.rs:50,122,140).  The source of the
    dependency is not in /repo: this file follows the crate's published 0.9 sources
    and RFC 8941 section 4.  Error texts are not modelled ([None] is [Err]). *)
From Verif Require Export Str Base64.

(** ** Data *)

(** [rust_decimal::Decimal]: sign, mantissa, scale (value = +-mant / 10^scale). *)
Record decimal := Dec { d_neg : bool; d_mant : N; d_scale : nat }.

(** [sfv::BareItem]. *)
Inductive bare :=
| BDecimal (d : decimal)
| BInteger (z : Z)
| BString (s : str)
| BByteSeq (b : str)
| BBoolean (b : bool)
| BToken (s : str).

(** [IndexMap<String, V>]: keys in insertion order. *)
Definition imap (V : Type) : Type := list (str * V).

(** [IndexMap::get]. *)
Fixpoint imap_get {V} (m : imap V) (k : str) : option V :=
  match m with
  | [] => None
  | (k', v) :: m' => if str_eqb k' k then Some v else imap_get m' k
  end.

(** [IndexMap::insert]: an existing key keeps its position and gets the new value. *)
Fixpoint imap_insert {V} (m : imap V) (k : str) (v : V) : imap V :=
  match m with
  | [] => [(k, v)]
  | (k', v') :: m' => if str_eqb k' k then (k', v) :: m' else (k', v') :: imap_insert m' k v
  end.

(** [sfv::Parameters], [sfv::Item], [sfv::InnerList], [sfv::ListEntry], [sfv::Dictionary]. *)
Definition params := imap bare.
Record item := Item { it_bare : bare; it_params : params }.
Record inner_list := InnerList { il_items : list item; il_params : params }.
Inductive list_entry := LEItem (i : item) | LEInner (l : inner_list).
Definition dictionary := imap list_entry.

(** [BareItem::as_str], [as_int], [as_token]. *)
Definition as_str (b : bare) : option str := match b with BString s => Some s | _ => None end.
Definition as_int (b : bare) : option Z := match b with BInteger z => Some z | _ => None end.
Definition as_token (b : bare) : option str := match b with BToken s => Some s | _ => None end.

(** ** Character classes *)

(** [utils::is_tchar]. *)
Definition is_tchar (c : ascii) : bool :=
  is_alpha c || is_digit c || existsb (Ascii.eqb c) $"!#$%&'*+-.^_`|~".
Definition is_token_char (c : ascii) : bool :=
  is_tchar c || Ascii.eqb c ":" || Ascii.eqb c "/".
Definition is_token_start (c : ascii) : bool := is_alpha c || Ascii.eqb c "*".
Definition is_key_char (c : ascii) : bool :=
  is_lower c || is_digit c || existsb (Ascii.eqb c) $"_-*.".
Definition is_key_start (c : ascii) : bool := is_lower c || Ascii.eqb c "*".
(** Not a control character (and ASCII). *)
Definition is_visible (c : ascii) : bool := in_range 32 126 c.
Definition is_b64_char (c : ascii) : bool :=
  is_alpha c || is_digit c || existsb (Ascii.eqb c) $"+/=".
Definition is_sp (c : ascii) : bool := Ascii.eqb c " ".
Definition is_ows (c : ascii) : bool := is_sp c || (code c =? 9)%N.

(** [utils::consume_sp_chars], [utils::consume_ows_chars]. *)
Definition skip_sp (s : str) : str := drop_while is_sp s.
Definition skip_ows (s : str) : str := drop_while is_ows s.

(** ** Parser

    A parser takes the remaining input and returns the value and the rest. *)

(** [Parser::parse_key]. *)
Definition parse_key (s : str) : option (str * str) :=
  match s with
  | c :: _ => if is_key_start c then Some (take_while is_key_char s, drop_while is_key_char s) else None
  | [] => None
  end.

(** [Parser::parse_string], after the opening quote. *)
Fixpoint parse_string_body (s : str) : option (str * str) :=
  match s with
  | [] => None
  | c :: s1 =>
      if Ascii.eqb c ch_quote then Some ([], s1)
      else if Ascii.eqb c ch_bslash then
        match s1 with
        | d :: s2 =>
            if Ascii.eqb d ch_bslash || Ascii.eqb d ch_quote
            then match parse_string_body s2 with
                 | Some (t, r) => Some (d :: t, r)
                 | None => None
                 end
            else None
        | [] => None
        end
      else if is_visible c then
        match parse_string_body s1 with
        | Some (t, r) => Some (c :: t, r)
        | None => None
        end
      else None
  end.

(** [Parser::parse_token]. *)
Definition parse_token (s : str) : option (str * str) :=
  match s with
  | c :: _ => if is_token_start c then Some (take_while is_token_char s, drop_while is_token_char s) else None
  | [] => None
  end.

(** [Parser::parse_bool], after '?'. *)
Definition parse_bool_body (s : str) : option (bool * str) :=
  match s with
  | c :: s1 => if Ascii.eqb c "1" then Some (true, s1) else if Ascii.eqb c "0" then Some (false, s1) else None
  | [] => None
  end.

(** [Parser::parse_byte_sequence], after the opening ':'. *)
Definition parse_byteseq_body (s : str) : option (str * str) :=
  match split_once ":" s with
  | None => None                                   (* no closing ':' *)
  | Some (content, rest) =>
      if forallb is_b64_char content
      then match sfv_b64_decode content with
           | Some b => Some (b, rest)
           | None => None
           end
      else None
  end.

(** [Parser::extract_digits]: integer part digits, optional '.' and fraction
    digits; [None] when one of the length limits is exceeded (15 digits for an
    integer; the point after at most 12 digits; 16 characters for a decimal). *)
Definition extract_digits (s : str) : option (str * option str * str) :=
  let ip := take_while is_digit s in
  let r := drop_while is_digit s in
  if (15 <? N.of_nat (List.length ip))%N then None
  else match r with
       | c :: r1 =>
           if Ascii.eqb c "." then
             if (12 <? N.of_nat (List.length ip))%N then None
             else
               let fp := take_while is_digit r1 in
               let r2 := drop_while is_digit r1 in
               if (16 <? N.of_nat (List.length ip + 1 + List.length fp))%N then None
               else Some (ip, Some fp, r2)
           else Some (ip, None, r)
       | [] => Some (ip, None, r)
       end.

(** The largest integer of structured fields (15 digits). *)
Definition sfv_int_max : Z := 999999999999999%Z.

(** [Parser::parse_number]. *)
Definition parse_number (s : str) : option (bare * str) :=
  let '(neg, s1) := match s with
                    | c :: s' => if Ascii.eqb c "-" then (true, s') else (false, s)
                    | [] => (false, s)
                    end in
  match s1 with
  | c :: _ =>
      if is_digit c then
        match extract_digits s1 with
        | None => None
        | Some (ip, None, r) =>
            let v := Z.of_N (val_of_dec ip) in
            let v := if neg then (- v)%Z else v in
            if (- sfv_int_max <=? v)%Z && (v <=? sfv_int_max)%Z then Some (BInteger v, r) else None
        | Some (ip, Some fp, r) =>
            match List.length fp with
            | 0%nat => None
            | 1%nat | 2%nat | 3%nat =>
                Some (BDecimal (Dec neg (val_of_dec (ip ++ fp)) (List.length fp)), r)
            | _ => None
            end
        end
      else None
  | [] => None
  end.

(** [Parser::parse_bare_item]. *)
Definition parse_bare_item (s : str) : option (bare * str) :=
  match s with
  | [] => None
  | c :: s1 =>
      if Ascii.eqb c "?" then
        match parse_bool_body s1 with Some (b, r) => Some (BBoolean b, r) | None => None end
      else if Ascii.eqb c ch_quote then
        match parse_string_body s1 with Some (t, r) => Some (BString t, r) | None => None end
      else if Ascii.eqb c ":" then
        match parse_byteseq_body s1 with Some (b, r) => Some (BByteSeq b, r) | None => None end
      else if is_token_start c then
        match parse_token s with Some (t, r) => Some (BToken t, r) | None => None end
      else if Ascii.eqb c "-" || is_digit c then parse_number s
      else None
  end.

(** [Parser::parse_parameters]: the [while] loop, with fuel (every iteration
    consumes at least the ';'). *)
Fixpoint parse_params_loop (fuel : nat) (s : str) (acc : params) : option (params * str) :=
  match fuel with
  | O => None
  | S f =>
      match s with
      | c :: s1 =>
          if Ascii.eqb c ";" then
            match parse_key (skip_sp s1) with
            | None => None
            | Some (k, s2) =>
                match s2 with
                | e :: s3 =>
                    if Ascii.eqb e "=" then
                      match parse_bare_item s3 with
                      | Some (v, s4) => parse_params_loop f s4 (imap_insert acc k v)
                      | None => None
                      end
                    else parse_params_loop f s2 (imap_insert acc k (BBoolean true))
                | [] => parse_params_loop f s2 (imap_insert acc k (BBoolean true))
                end
            end
          else Some (acc, s)
      | [] => Some (acc, s)
      end
  end.
Definition parse_params (s : str) : option (params * str) :=
  parse_params_loop (S (List.length s)) s [].

(** [Item::parse]. *)
Definition parse_item (s : str) : option (item * str) :=
  match parse_bare_item s with
  | None => None
  | Some (b, r) =>
      match parse_params r with
      | None => None
      | Some (p, r') => Some (Item b p, r')
      end
  end.

(** [Parser::parse_inner_list], after the '(' (loop with fuel). *)
Fixpoint parse_inner_loop (fuel : nat) (s : str) (acc : list item) : option (inner_list * str) :=
  match fuel with
  | O => None
  | S f =>
      match s with
      | [] => None                     (* the end of the inner list was not found *)
      | _ :: _ =>
          match skip_sp s with
          | c :: s1 =>
              if Ascii.eqb c ")" then
                match parse_params s1 with
                | Some (p, r) => Some (InnerList (rev acc) p, r)
                | None => None
                end
              else
                match parse_item (c :: s1) with
                | None => None
                | Some (i, r) =>
                    match r with
                    | d :: _ => if is_sp d || Ascii.eqb d ")" then parse_inner_loop f r (i :: acc) else None
                    | [] => None       (* loop ends: list not closed *)
                    end
                end
          | [] => None                 (* parse_bare_item on empty input *)
          end
      end
  end.
Definition parse_inner_list_body (s : str) : option (inner_list * str) :=
  parse_inner_loop (S (List.length s)) s [].

(** [Parser::parse_list_entry]. *)
Definition parse_list_entry (s : str) : option (list_entry * str) :=
  match s with
  | c :: s1 =>
      if Ascii.eqb c "(" then
        match parse_inner_list_body s1 with Some (l, r) => Some (LEInner l, r) | None => None end
      else match parse_item s with Some (i, r) => Some (LEItem i, r) | None => None end
  | [] => None
  end.

(** [Dictionary::parse] (loop with fuel). *)
Fixpoint parse_dict_loop (fuel : nat) (s : str) (acc : dictionary) : option (dictionary * str) :=
  match fuel with
  | O => None
  | S f =>
      match s with
      | [] => Some (acc, [])
      | _ :: _ =>
          match parse_key s with
          | None => None
          | Some (k, s1) =>
              let member :=
                match s1 with
                | e :: s2 =>
                    if Ascii.eqb e "=" then parse_list_entry s2
                    else match parse_params s1 with
                         | Some (p, r) => Some (LEItem (Item (BBoolean true) p), r)
                         | None => None
                         end
                | [] => Some (LEItem (Item (BBoolean true) []), [])
                end in
              match member with
              | None => None
              | Some (m, s3) =>
                  let acc' := imap_insert acc k m in
                  match skip_ows s3 with
                  | [] => Some (acc', [])
                  | c :: s4 =>
                      if Ascii.eqb c "," then
                        match skip_ows s4 with
                        | [] => None                    (* trailing comma *)
                        | (_ :: _) as s5 => parse_dict_loop f s5 acc'
                        end
                      else None
                  end
              end
          end
      end
  end.

(** [Parser::parse_dictionary]: ASCII check, surrounding spaces, no trailing text. *)
Definition parse_dictionary (s : str) : option dictionary :=
  if is_ascii s then
    match parse_dict_loop (S (List.length s)) (skip_sp s) [] with
    | Some (d, r) => match skip_sp r with [] => Some d | _ => None end
    | None => None
    end
  else None.

(** [Parser::parse_item]. *)
Definition parse_item_field (s : str) : option item :=
  if is_ascii s then
    match parse_item (skip_sp s) with
    | Some (i, r) => match skip_sp r with [] => Some i | _ => None end
    | None => None
    end
  else None.

(** ** Serializer ([None] is a serialization error) *)

(** [Serializer::serialize_key] (the empty key passes both checks of the crate). *)
Definition ser_key (k : str) : option str :=
  if forallb is_key_char k && match k with c :: _ => is_key_start c | [] => true end
  then Some k else None.

(** [Serializer::serialize_integer]. *)
Definition ser_integer (z : Z) : option str :=
  if (- sfv_int_max <=? z)%Z && (z <=? sfv_int_max)%Z then Some (dec_of_Z z) else None.

(** [Serializer::serialize_string]. *)
Fixpoint escape (s : str) : str :=
  match s with
  | [] => []
  | c :: s' => if Ascii.eqb c ch_bslash || Ascii.eqb c ch_quote then ch_bslash :: c :: escape s' else c :: escape s'
  end.
Definition ser_string (s : str) : option str :=
  if forallb is_visible s then Some (ch_quote :: escape s ++ [ch_quote]) else None.

(** [Serializer::serialize_token] (the empty token passes both checks). *)
Definition ser_token (s : str) : option str :=
  if forallb is_token_char s && match s with c :: _ => is_token_start c | [] => true end
  then Some s else None.

(** [Decimal::round_dp(3)]: nearest, ties to even. *)
Definition round3 (d : decimal) : decimal :=
  if (d_scale d <=? 3)%nat then d
  else
    let u := (10 ^ N.of_nat (d_scale d - 3))%N in
    let q := (d_mant d / u)%N in
    let r := (d_mant d mod u)%N in
    let q' := match (2 * r ?= u)%N with
              | Lt => q
              | Gt => (q + 1)%N
              | Eq => if N.even q then q else (q + 1)%N
              end in
    Dec (d_neg d) q' 3.

(** Left-pad with zeros to [n] digits. *)
Definition pad0 (n : nat) (s : str) : str := List.repeat "0"%char (n - List.length s) ++ s.

(** [Serializer::serialize_decimal]. *)
Definition ser_decimal (d0 : decimal) : option str :=
  let d := round3 d0 in
  let u := (10 ^ N.of_nat (d_scale d))%N in
  let ip := (d_mant d / u)%N in
  let fp := (d_mant d mod u)%N in
  let sign := if d_neg d then $"-" else [] in
  if (12 <? N.of_nat (List.length (dec_of_N ip)))%N then None
  else if (fp =? 0)%N then Some (sign ++ dec_of_N ip ++ $".0")
  else Some (sign ++ dec_of_N ip ++ $"." ++ pad0 (d_scale d) (dec_of_N fp)).

(** [Serializer::serialize_bare_item]. *)
Definition ser_bare (b : bare) : option str :=
  match b with
  | BDecimal d => ser_decimal d
  | BInteger z => ser_integer z
  | BString s => ser_string s
  | BByteSeq b => Some ($":" ++ b64_encode b ++ $":")
  | BBoolean b => Some (if b then $"?1" else $"?0")
  | BToken s => ser_token s
  end.

(** [Serializer::serialize_parameters]. *)
Definition ser_param (kv : str * bare) : option str :=
  match ser_key (fst kv) with
  | None => None
  | Some k =>
      match snd kv with
      | BBoolean true => Some (";"%char :: k)
      | v => match ser_bare v with
             | Some t => Some (";"%char :: k ++ $"=" ++ t)
             | None => None
             end
      end
  end.
Fixpoint ser_params (p : params) : option str :=
  match p with
  | [] => Some []
  | kv :: p' =>
      match ser_param kv, ser_params p' with
      | Some a, Some b => Some (a ++ b)
      | _, _ => None
      end
  end.

(** [Serializer::serialize_item]; [Item::serialize_value]. *)
Definition ser_item (i : item) : option str :=
  match ser_bare (it_bare i), ser_params (it_params i) with
  | Some a, Some b => Some (a ++ b)
  | _, _ => None
  end.

(** The items of an inner list, one by one ([Serializer::serialize_inner_list]). *)
Fixpoint ser_items (l : list item) : option (list str) :=
  match l with
  | [] => Some []
  | i :: l' =>
      match ser_item i, ser_items l' with
      | Some a, Some b => Some (a :: b)
      | _, _ => None
      end
  end.

(** [Serializer::serialize_inner_list]; also [List::serialize_value] of the
    one-element list built by [ComponentList::as_list]. *)
Definition ser_inner_list (l : inner_list) : option str :=
  match ser_items (il_items l), ser_params (il_params l) with
  | Some its, Some p => Some ($"(" ++ join $" " its ++ $")" ++ p)
  | _, _ => None
  end.

(** [Dictionary::serialize_value] of the one-member dictionary built by
    [SignatureInput]'s [Display] (src/signature_input.rs:116-123). *)
Definition ser_dict1 (label : str) (l : inner_list) : option str :=
  match ser_key label, ser_inner_list l with
  | Some k, Some t => Some (k ++ $"=" ++ t)
  | _, _ => None
  end.
