(** [Host::parse] of `url` 2.4 (host.rs), the parser of host names used by [Url::parse], which
    httpsig-validator/src/mock_request.rs calls at lines 82, 194 and 202.  The IDNA mapping
    ([idna::domain_to_ascii]) is an argument. *)
From Verif Require Export UrlParse Utf8.

(** [Host].  Used at mock_request.rs:82, 194, 202. *)
Inductive host := HDomain (name : str) | HIpv4 (address : N) | HIpv6 (pieces : list N).

(** ** IPv4 *)

(** [u32::from_str_radix] on digits of the radix; [None] is an overflow.
    Used at mock_request.rs:82, 194, 202. *)
Definition radix_value (r : N) (s : str) : N :=
  fold_left (fun a c => match hex_val c with Some d => r * a + d | None => a end)%N s 0%N.
Definition from_str_radix (r : N) (s : str) : option N :=
  let n := radix_value r s in if (n <? 2 ^ 32)%N then Some n else None.
Definition digit_in (r : N) (c : ascii) : bool := match hex_val c with Some d => (d <? r)%N | None => false end.

(** [parse_ipv4number]: [None] is [Err(())], [Some None] an overflow.
    Used at mock_request.rs:82, 194, 202. *)
Definition parse_ipv4number (s : str) : option (option N) :=
  match s with
  | [] => None
  | _ =>
      let '(r, t) :=
        if starts_with $"0x" s || starts_with $"0X" s then (16%N, skipn 2 s)
        else if starts_with $"0" s && (2 <=? List.length s)%nat then (8%N, skipn 1 s)
        else (10%N, s) in
      match t with
      | [] => Some (Some 0%N)
      | _ => if forallb (digit_in r) t then Some (from_str_radix r t) else None
      end
  end.

(** [ends_in_a_number].  Used at mock_request.rs:82, 194, 202. *)
Definition ends_in_a_number (s : str) : bool :=
  match rev (split "." s) with
  | [] => false
  | last :: before =>
      match match last with [] => match before with [] => None | x :: _ => Some x end | _ => Some last end with
      | None => false
      | Some [] => false
      | Some x => forallb is_digit x || match parse_ipv4number x with Some _ => true | None => false end
      end
  end.

(** The numbers of the parts; any error is one.  Used at mock_request.rs:82, 194, 202. *)
Fixpoint ipv4_numbers (parts : list str) : option (list N) :=
  match parts with
  | [] => Some []
  | p :: parts' =>
      match parse_ipv4number p, ipv4_numbers parts' with
      | Some (Some n), Some l => Some (n :: l)
      | _, _ => None
      end
  end.
(** The shifted sum: [shift] is 24 for the first number.
    Used at mock_request.rs:82, 194, 202. *)
Fixpoint ipv4_sum (shift : N) (l : list N) : N :=
  match l with [] => 0%N | n :: l' => (N.shiftl n shift + ipv4_sum (shift - 8) l')%N end.
(** [parse_ipv4addr].  Used at mock_request.rs:82, 194, 202. *)
Definition parse_ipv4addr (s : str) : option N :=
  let parts := split "." s in
  let parts := match rev parts with [] :: before => rev before | _ => parts end in
  if (4 <? List.length parts)%nat then None
  else
    match ipv4_numbers parts with
    | None => None
    | Some l =>
        match rev l with
        | [] => None                                                      (* not reached: [expect] *)
        | last :: before =>
            if (N.shiftr (2 ^ 32 - 1) (8 * N.of_nat (List.length before)) <? last)%N then None
            else if existsb (fun n => 255 <? n)%N before then None
            else Some (last + ipv4_sum 24 (rev before))%N
        end
    end.

(** [Display] of [Ipv4Addr].  Used at mock_request.rs:82, 194, 202. *)
Definition ipv4_text (n : N) : str :=
  join $"." (map dec_of_N [N.shiftr n 24 mod 256; N.shiftr n 16 mod 256; N.shiftr n 8 mod 256; n mod 256]%N).

(** ** IPv6 *)

(** The inner loop of [parse_ipv6addr]: at most [k] hexadecimal digits.
    Used at mock_request.rs:82, 194, 202. *)
Fixpoint hex_group (k : nat) (v : N) (s : str) : N * str :=
  match k, s with
  | S k', c :: s' => match hex_val c with Some d => hex_group k' (16 * v + d)%N s' | None => (v, s) end
  | _, _ => (v, s)
  end.
(** The main loop.  [acc] is the array up to [piece_pointer], [cp] is [compress_pointer]; the
    text of an IPv4 address at the end is left over.  Every round but the last consumes a
    character: fuel.  Used at mock_request.rs:82, 194, 202. *)
Fixpoint ipv6_loop (fuel : nat) (acc : list N) (cp : option nat) (s : str) : option (list N * option nat * str) :=
  match s, fuel with
  | [], _ => Some (acc, cp, [])
  | _, O => None
  | c :: s', S f =>
      if (List.length acc =? 8)%nat then None
      else if Ascii.eqb c ":" then
        match cp with Some _ => None | None => ipv6_loop f (acc ++ [0%N]) (Some (S (List.length acc))) s' end
      else
        let '(v, rest) := hex_group 4 0 s in
        match rest with
        | [] => ipv6_loop f (acc ++ [v]) cp []
        | d :: rest' =>
            if Ascii.eqb d "." then
              match hex_val c with
              | None => None
              | Some _ => if (6 <? List.length acc)%nat then None else Some (acc, cp, s)
              end
            else if Ascii.eqb d ":" then match rest' with [] => None | _ => ipv6_loop f (acc ++ [v]) cp rest' end
            else None
        end
  end.
(** One decimal number of the IPv4 part: no leading zero, at most 255.
    Used at mock_request.rs:82, 194, 202. *)
Fixpoint ipv4_piece (v : option N) (s : str) : option (option N * str) :=
  match s with
  | [] => Some (v, [])
  | c :: s' =>
      if is_digit c then
        match v with
        | None => ipv4_piece (Some (digit_val c)) s'
        | Some 0%N => None
        | Some n => let n' := (10 * n + digit_val c)%N in if (255 <? n')%N then None else ipv4_piece (Some n') s'
        end
      else Some (v, s)
  end.
(** The loop over the four numbers.  Used at mock_request.rs:82, 194, 202. *)
Fixpoint ipv4_pieces (fuel : nat) (seen : list N) (s : str) : option (list N) :=
  match s, fuel with
  | [], _ => Some seen
  | _, O => None
  | c :: s', S f =>
      match (match seen with [] => Some s | _ => if (List.length seen <? 4)%nat && Ascii.eqb c "." then Some s' else None end) with
      | None => None
      | Some t => match ipv4_piece None t with Some (Some v, rest) => ipv4_pieces f (seen ++ [v]) rest | _ => None end
      end
  end.
(** The end of [parse_ipv6addr]: the swaps move what follows the compression to the end of
    the array.  Used at mock_request.rs:82, 194, 202. *)
Definition ipv6_finish (acc : list N) (cp : option nat) : option (list N) :=
  match cp with
  | Some p => Some (firstn p acc ++ repeat 0%N (8 - List.length acc) ++ skipn p acc)
  | None => if (List.length acc =? 8)%nat then Some acc else None
  end.
(** [parse_ipv6addr].  Used at mock_request.rs:82, 194, 202. *)
Definition parse_ipv6addr (s : str) : option (list N) :=
  let start := match s with
               | [] | [_] => None
               | a :: b :: s' => if Ascii.eqb a ":" then (if Ascii.eqb b ":" then Some ([0%N], Some 1%nat, s') else None) else Some ([], None, s)
               end in
  match start with
  | None => None
  | Some (acc, cp, t) =>
      match ipv6_loop (List.length t) acc cp t with
      | None => None
      | Some (acc, cp, []) => ipv6_finish acc cp
      | Some (acc, cp, v4) =>
          match ipv4_pieces (List.length v4) [] v4 with
          | Some [a; b; c; d] => ipv6_finish (acc ++ [256 * a + b; 256 * c + d]%N) cp
          | _ => None
          end
      end
  end.

(** [longest_zero_sequence]: the first longest run of zeros, of two or more.
    Used at mock_request.rs:82, 194, 202. *)
Definition finish_sequence (best : option (nat * nat)) (start : option nat) (i : nat) : option (nat * nat) :=
  match start with
  | None => best
  | Some st => if (match best with Some (_, n) => n | None => O end <? i - st)%nat then Some (st, i - st)%nat else best
  end.
Fixpoint zero_runs (best : option (nat * nat)) (start : option nat) (i : nat) (p : list N) : option (nat * nat) :=
  match p with
  | [] => finish_sequence best start i
  | x :: p' =>
      if (x =? 0)%N then zero_runs best (match start with None => Some i | _ => start end) (S i) p'
      else zero_runs (finish_sequence best start i) None (S i) p'
  end.
Definition longest_zero_sequence (p : list N) : option (nat * nat) :=
  match zero_runs None None 0 p with Some (st, n) => if (n <? 2)%nat then None else Some (st, st + n)%nat | None => None end.

(** "{:x}" of a u16.  Used at mock_request.rs:82, 194, 202. *)
Definition hex_lower (n : N) : ascii := ascii_of_N (if (n <? 10)%N then 48 + n else 87 + n).
Definition hex_text (n : N) : str :=
  match drop_while (Ascii.eqb "0") (map hex_lower [n / 4096 mod 16; n / 256 mod 16; n / 16 mod 16; n mod 16]%N) with
  | [] => $"0"
  | s => s
  end.
(** [write_ipv6]: the pieces from number [i] on, without those of the run.
    Used at mock_request.rs:82, 194, 202. *)
Fixpoint write_ipv6 (run : option (nat * nat)) (i : nat) (p : list N) : str :=
  match p with
  | [] => []
  | x :: p' =>
      match run with
      | Some (a, b) =>
          if (a <=? i)%nat && (i <? b)%nat then
            (if (i =? a)%nat then (if (i =? 0)%nat then $"::" else $":") else []) ++ write_ipv6 run (S i) p'
          else hex_text x ++ (if (i <? 7)%nat then $":" else []) ++ write_ipv6 run (S i) p'
      | None => hex_text x ++ (if (i <? 7)%nat then $":" else []) ++ write_ipv6 run (S i) p'
      end
  end.
Definition ipv6_text (p : list N) : str := write_ipv6 (longest_zero_sequence p) 0 p.

(** ** Hosts *)

(** [is_invalid_domain_char].  Used at mock_request.rs:82, 194, 202. *)
Definition invalid_domain_char (c : ascii) : bool :=
  (code c <=? 32)%N || (code c =? 127)%N || existsb (Ascii.eqb c) $"#%/:<>?@[\]^|".

(** [Host::parse].  Used at mock_request.rs:82, 194, 202. *)
Definition host_parse (idna : str -> option str) (s : str) : option host :=
  if starts_with $"[" s then
    match rev s with
    | "]"%char :: t => match t with [] => None | _ => option_map HIpv6 (parse_ipv6addr (skipn 1 (rev t))) end
    | _ => None
    end
  else
    match idna (from_utf8_lossy (percent_decode s)) with
    | None => None
    | Some [] => None
    | Some d =>
        if existsb invalid_domain_char d then None
        else if ends_in_a_number d then option_map HIpv4 (parse_ipv4addr d)
        else Some (HDomain d)
    end.

(** [Display] of [Host].  Used at mock_request.rs:82, 194, 202. *)
Definition host_show (h : host) : str :=
  match h with
  | HDomain d => d
  | HIpv4 n => ipv4_text n
  | HIpv6 p => $"[" ++ ipv6_text p ++ $"]"
  end.

(** The argument of [url_parse].  Used at mock_request.rs:82, 194, 202. *)
Definition url_host (idna : str -> option str) : host_parser := fun s => option_map host_show (host_parse idna s).
