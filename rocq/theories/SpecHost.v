(** Host names as the URL standard describes them.  Nothing here models code; [hex_digit] and
    [lossy_text] are in SpecQuery.v, [host_laws] in SpecUrl.v. *)
From Verif Require Export SpecUrl SpecQuery HostParse.

(** ** IPv4 *)
(** [numeral r s n]: [s] consists of digits of radix [r] (possibly none) and has the value [n]. *)
Inductive numeral (r : N) : str -> N -> Prop :=
| numeral_nil : numeral r [] 0
| numeral_snoc s c n d : numeral r s n -> hex_digit c d -> (d < r)%N -> numeral r (s ++ [c]) (r * n + d).
(** A number as C writes it: decimal, octal after "0", hexadecimal after "0x"; "0x" is zero. *)
Inductive c_number : str -> N -> Prop :=
| c_decimal s n : s <> [] -> (forall t, t <> [] -> s <> "0"%char :: t) -> numeral 10 s n -> c_number s n
| c_octal s n : s <> [] -> numeral 8 s n -> c_number ("0"%char :: s) n
| c_hex x s n : x = "x"%char \/ x = "X"%char -> numeral 16 s n -> c_number ("0"%char :: x :: s) n.
(** One to four numbers between dots: all but the last fill one byte each, the last one the
    rest.  A dot may follow. *)
Fixpoint dotted (parts : list str) : str :=
  match parts with [] => [] | p :: parts' => match parts' with [] => p | _ => p ++ $"." ++ dotted parts' end end.
Fixpoint bytes_value (bytes : list N) : N -> nat -> N :=
  match bytes with
  | [] => fun last _ => last
  | b :: bytes' => fun last k => (b * 256 ^ N.of_nat k + bytes_value bytes' last (k - 1))%N
  end.
Definition ipv4_reads (s : str) (n : N) : Prop :=
  exists parts last bytes m t,
    s = dotted (parts ++ [last]) ++ t /\ (t = [] \/ t = $".") /\ (List.length parts <= 3)%nat
    /\ Forall2 c_number parts bytes /\ c_number last m
    /\ Forall (fun b => (b < 256)%N) bytes /\ (m < 256 ^ N.of_nat (4 - List.length parts))%N
    /\ n = bytes_value bytes m 3.
(** The last part between dots (the last but one if the last is empty) looks like a number. *)
Definition looks_ipv4 (s : str) : Prop :=
  exists before last t, s = before ++ last ++ t /\ (t = [] \/ t = $".") /\ (before = [] \/ exists b, before = b ++ $".")
    /\ ~ In "."%char last /\ last <> []
    /\ (Forall (fun c => (48 <= N_of_ascii c <= 57)%N) last \/ exists n, c_number last n).

(** ** IPv6 *)
(** A group of one to four hexadecimal digits. *)
Definition group (s : str) (n : N) : Prop := s <> [] /\ (List.length s <= 4)%nat /\ numeral 16 s n.
(** Groups between colons. *)
Inductive groups : str -> list N -> Prop :=
| groups_one s n : group s n -> groups s [n]
| groups_more s n t l : group s n -> groups t l -> groups (s ++ $":" ++ t) (n :: l).
(** A decimal number below 256 without leading zeros. *)
Definition octet (s : str) (n : N) : Prop := s <> [] /\ (forall t, t <> [] -> s <> "0"%char :: t) /\ numeral 10 s n /\ (n < 256)%N.
Inductive quad : str -> list N -> Prop :=
| quad_intro a b c d na nb nc nd : octet a na -> octet b nb -> octet c nc -> octet d nd ->
    quad (a ++ $"." ++ b ++ $"." ++ c ++ $"." ++ d) [256 * na + nb; 256 * nc + nd]%N.
(** The end of an address: groups, or groups and an IPv4 address in place of the last two. *)
Inductive addr_end : str -> list N -> Prop :=
| end_groups s l : groups s l -> addr_end s l
| end_quad s l : quad s l -> addr_end s l
| end_both s l t l' : groups s l -> quad t l' -> addr_end (s ++ $":" ++ t) (l ++ l').
(** Eight pieces, or fewer with one "::" for the missing zeros. *)
Inductive ipv6_reads : str -> list N -> Prop :=
| ipv6_full s l : addr_end s l -> List.length l = 8%nat -> ipv6_reads s l
| ipv6_short a l b l' z : (a = [] /\ l = [] \/ groups a l) -> (b = [] /\ l' = [] \/ addr_end b l') ->
    (List.length l + S z + List.length l' = 8)%nat -> ipv6_reads (a ++ $"::" ++ b) (l ++ repeat 0%N (S z) ++ l').

(** ** Hosts *)
Definition forbidden (c : ascii) : Prop := (N_of_ascii c <= 32)%N \/ N_of_ascii c = 127%N \/ one_of "#%/:<>?@[\]^|" c.
(** Escapes: "%XY" is the byte XY; anything else stands for itself. *)
Inductive unpercent : str -> str -> Prop :=
| up_nil : unpercent [] []
| up_hex h l x y c s d : hex_digit h x -> hex_digit l y -> N_of_ascii c = (16 * x + y)%N ->
    unpercent s d -> unpercent ("%"%char :: h :: l :: s) (c :: d)
| up_other c s d : ~ (c = "%"%char /\ exists h l s' x y, s = h :: l :: s' /\ hex_digit h x /\ hex_digit l y) ->
    unpercent s d -> unpercent (c :: s) (c :: d).
(** The name that [s] stands for: escapes are decoded, then the text is mapped. *)
Definition mapped (idna : str -> option str) (s d : str) : Prop :=
  exists b t, unpercent s b /\ lossy_text b t /\ idna t = Some d.
(** [host_reads idna s h]: the text [s] stands for the host [h]. *)
Inductive host_reads (idna : str -> option str) : str -> host -> Prop :=
| reads_ipv6 s p : ipv6_reads s p -> host_reads idna ($"[" ++ s ++ $"]") (HIpv6 p)
| reads_ipv4 s d n : (forall t, s <> "["%char :: t) -> mapped idna s d ->
    Forall (fun c => ~ forbidden c) d -> ipv4_reads d n -> host_reads idna s (HIpv4 n)
| reads_domain s d : (forall t, s <> "["%char :: t) -> mapped idna s d ->
    Forall (fun c => ~ forbidden c) d -> d <> [] -> ~ looks_ipv4 d -> host_reads idna s (HDomain d).

(** ** The text of a host *)
(** A group without leading zeros and capital letters. *)
Definition short_group (s : str) (n : N) : Prop :=
  group s n /\ (forall t, t <> [] -> s <> "0"%char :: t) /\ Forall (fun c => ~ (65 <= N_of_ascii c <= 70)%N) s.
Inductive short_groups : str -> list N -> Prop :=
| short_one s n : short_group s n -> short_groups s [n]
| short_more s n t l : short_group s n -> short_groups t l -> short_groups (s ++ $":" ++ t) (n :: l).
(** [n] zeros from position [k] on. *)
Definition zeros_at (p : list N) (k n : nat) : Prop := exists a b, p = a ++ repeat 0%N n ++ b /\ List.length a = k.
(** As RFC 5952 asks: "::" is for the first of the longest sequences of two or more zeros. *)
Inductive ipv6_written (p : list N) : str -> Prop :=
| written_full s : short_groups s p -> (forall k n, zeros_at p k n -> (n < 2)%nat) -> ipv6_written p s
| written_short a l n b l' : p = l ++ repeat 0%N n ++ l' -> (2 <= n)%nat ->
    (forall k m, zeros_at p k m -> (m < n \/ m = n /\ List.length l <= k)%nat) ->
    (a = [] /\ l = [] \/ short_groups a l) -> (b = [] /\ l' = [] \/ short_groups b l') -> ipv6_written p (a ++ $"::" ++ b).
Inductive host_written : host -> str -> Prop :=
| domain_written d : host_written (HDomain d) d
| ipv4_written n a b c d na nb nc nd : octet a na -> octet b nb -> octet c nc -> octet d nd ->
    n = (((na * 256 + nb) * 256 + nc) * 256 + nd)%N -> host_written (HIpv4 n) (a ++ $"." ++ b ++ $"." ++ c ++ $"." ++ d)
| ipv6_written_host p s : ipv6_written p s -> host_written (HIpv6 p) ($"[" ++ s ++ $"]").

(** What is expected of the IDNA mapping: ASCII results, which it leaves alone; so it does
    with digits and dots. *)
Record idna_laws (idna : str -> option str) : Prop := IdnaLaws {
  il_ascii : forall s t, idna s = Some t -> Forall (fun c => (N_of_ascii c < 128)%N) t;
  il_again : forall s t, idna s = Some t -> idna t = Some t;
  il_digits : forall s, Forall (fun c => (48 <= N_of_ascii c <= 57)%N \/ c = "."%char) s -> idna s = Some s
}.
(** A mapping with these laws: lower case, for ASCII names without encoded labels. *)
Definition ascii_idna (s : str) : option str :=
  if forallb is_ascii_byte s && negb (existsb (fun l => starts_with $"xn--" (map to_lower l)) (split "." s))
  then Some (map to_lower s) else None.

(** ** URLs *)
(** The host in the text of a URL, as written: what a parser finds that leaves hosts alone. *)
Definition host_in (s hs : str) : Prop := exists u, special_url Some s u /\ u_host u = Some hs.
(** The host that the URL [s] addresses. *)
Definition addresses (idna : str -> option str) (s : str) (h : host) : Prop := exists hs, host_in s hs /\ host_reads idna hs h.
