(** Characters in UTF-8, white space, and texts without white space around them.  Nothing
    here models code. *)
From Verif Require Export Str.

(** The UTF-8 encoding of a Unicode scalar value (Unicode 15, section 3.9). *)
Definition utf8_bytes (n : N) : list N :=
  (if n <? 0x80 then [n]
   else if n <? 0x800 then [0xC0 + n / 64; 0x80 + n mod 64]
   else if n <? 0x10000 then [0xE0 + n / 4096; 0x80 + (n / 64) mod 64; 0x80 + n mod 64]
   else [0xF0 + n / 262144; 0x80 + (n / 4096) mod 64; 0x80 + (n / 64) mod 64; 0x80 + n mod 64])%N.

(** The characters with the Unicode property White_Space. *)
Definition white_points : list N :=
  [0x9; 0xA; 0xB; 0xC; 0xD; 0x20; 0x85; 0xA0; 0x1680; 0x2000; 0x2001; 0x2002; 0x2003; 0x2004; 0x2005; 0x2006; 0x2007;
   0x2008; 0x2009; 0x200A; 0x2028; 0x2029; 0x202F; 0x205F; 0x3000]%N.
Definition white (s : str) : Prop := exists n, In n white_points /\ map N_of_ascii s = utf8_bytes n.
Definition white_text (s : str) : Prop := exists l, Forall white l /\ s = List.concat l.

(** [trimmed s t]: [t] is [s] without the white space at both ends. *)
Definition trimmed (s t : str) : Prop :=
  (exists a b, white_text a /\ white_text b /\ s = a ++ t ++ b)
  /\ (forall w x, white w -> t <> w ++ x) /\ (forall w x, white w -> t <> x ++ w).
