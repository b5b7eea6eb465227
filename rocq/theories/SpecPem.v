(** Which texts the PEM reader takes, exactly.  Nothing here models code. *)
From Verif Require Export SpecKey SpecTrim SpecQuery.

(** [scan marker s before rest]: reading [s] up to the marker.  A beginning of the marker
    followed by another byte is passed over together with that byte. *)
Inductive scan (marker : str) : str -> str -> str -> Prop :=
| scan_found rest : scan marker (marker ++ rest) [] rest
| scan_pass p d m c s before rest : marker = p ++ d :: m -> c <> d -> scan marker s before rest ->
    scan marker (p ++ c :: s) (p ++ c :: before) rest.

(** Space, tab, LF, CR. *)
Definition pem_blank (c : ascii) : Prop := In (N_of_ascii c) [32; 9; 10; 13]%N.
(** The text of the lines, without the white space at their ends. *)
Inductive unlined : str -> str -> Prop :=
| unlined_last line w : white_text w -> (forall x y, white y -> line <> x ++ y) -> ~ In ch_lf (line ++ w) -> unlined (line ++ w) line
| unlined_line line w s t : white_text w -> (forall x y, white y -> line <> x ++ y) -> ~ In ch_lf (line ++ w) -> unlined s t ->
    unlined (line ++ w ++ ch_lf :: s) (line ++ t).
(** Base64 with some or all of the padding missing. *)
Definition loose_base64 (t contents : str) : Prop :=
  exists body m n, ~ In "="%char body /\ t = body ++ repeat "="%char m /\ b64_bits contents = body ++ repeat "="%char n /\ (m <= n)%nat.

Definition pem_reads (text label contents : str) : Prop :=
  exists before s1 s2 blanks s3 data s4 after t,
    scan $"-----BEGIN " text before s1 /\ scan $"-----" s1 label s2
    /\ s2 = blanks ++ s3 /\ Forall pem_blank blanks /\ (forall c x, s3 = c :: x -> ~ pem_blank c)
    /\ scan $"-----END " s3 data s4 /\ scan $"-----" s4 label after
    /\ label <> [] /\ utf8_text label /\ utf8_text data
    /\ unlined data t /\ loose_base64 t contents.
