(** The text form of requests.  Nothing here models code. *)
From Verif Require Export SpecMock SpecQuery SpecLine SpecTrim SpecSign.

(** Blanks at the ends of a value do not survive. *)
Definition blank (c : ascii) : Prop := c = " "%char \/ c = ascii_of_nat 9.
Definition plain_value (v : str) : Prop :=
  Forall (fun c => visible c \/ c = ascii_of_nat 9) v
  /\ (forall c x, v = c :: x -> ~ blank c) /\ (forall c x, v = x ++ [c] -> ~ blank c).
(** Space, tab, line feed, form feed, carriage return. *)
Definition ascii_blank (c : ascii) : Prop := In (N_of_ascii c) [32%N; 9%N; 10%N; 12%N; 13%N].

(** Requests whose parts survive line framing. *)
Definition text_request (r : mock) : Prop :=
  (mr_method r <> [] /\ Forall tchar (mr_method r))
  /\ (mr_path r <> [] /\ utf8_text (mr_path r) /\ Forall (fun c => ~ ascii_blank c) (mr_path r))
  /\ NoDup (map fst (mr_headers r)) /\ Forall (fun h => header_name (fst h) /\ plain_value (snd h)) (mr_headers r).

(** The text: request line, header lines, and a blank line before the body. *)
Definition header_line (h : str * str) : str := fst h ++ $": " ++ snd h ++ [ch_lf].
Definition request_text (r : mock) : str :=
  mr_method r ++ $" " ++ mr_path r ++ $" HTTP/1.1" ++ [ch_lf] ++ List.concat (map header_line (mr_headers r))
  ++ match mr_body r with Some b => ch_lf :: b | None => [] end.
Definition shown (r : mock) : Prop := Forall (fun h => Forall (fun c => visible c \/ c = ascii_of_nat 9) (snd h)) (mr_headers r).

Definition as_version (v : version) (r : mock) : mock :=
  MockReq v (mr_method r) (mr_url r) (mr_path r) (mr_headers r) (mr_body r).

(** The URL of a request target: itself when absolute, relative to the Host header
    otherwise. *)
Definition target_url (up : url_parser) (path : str) (headers : header_map) (u : url) : Prop :=
  up path = Ok u
  \/ up path = Err RelativeUrlWithoutBase
     /\ exists host, first_value headers $"host" = Some host /\ Forall (fun c => visible c \/ c = ascii_of_nat 9) host
                     /\ up ($"http://" ++ host ++ path) = Ok u.
(** Logging the body needs it to be text. *)
Definition loggable (trace : bool) (r : mock) : Prop :=
  trace = true -> match mr_body r with Some b => utf8_text b | None => True end.
(** The words of a text. *)
Inductive wordlist : str -> list str -> Prop :=
| words_nil s : Forall ascii_blank s -> wordlist s []
| words_last b w : Forall ascii_blank b -> w <> [] -> Forall (fun c => ~ ascii_blank c) w -> wordlist (b ++ w) [w]
| words_cons b w c s ws : Forall ascii_blank b -> w <> [] -> Forall (fun c => ~ ascii_blank c) w -> ascii_blank c ->
    wordlist s ws -> wordlist (b ++ w ++ c :: s) (w :: ws).

(** ** Framing *)
(** The first line of a text, with its line feed, and the rest. *)
Inductive first_line : str -> str -> str -> Prop :=
| line_lf l s : ~ In ch_lf l -> first_line (l ++ ch_lf :: s) (l ++ [ch_lf]) s
| line_end l : ~ In ch_lf l -> first_line l l [].
(** "name: value", the white space around both dropped. *)
Definition header_of (line name value : str) : Prop :=
  exists a b n, line = a ++ ":"%char :: b /\ ~ In ":"%char a
    /\ trimmed a n /\ spelled n name /\ trimmed b value /\ legal_value value.
(** Header lines up to the end of the text, or up to a line of white space; the body is what
    follows that line. *)
Inductive header_block : str -> list (str * str) -> option str -> Prop :=
| block_end : header_block [] [] None
| block_blank s line body : first_line s line body -> line <> [] -> white_text line -> header_block s [] (Some body)
| block_line s line rest n v hs body : first_line s line rest -> utf8_text line -> header_of line n v ->
    header_block rest hs body -> header_block s ((n, v) :: hs) body.
Definition version_name (v : version) : str :=
  match v with HTTP_09 => $"HTTP/0.9" | HTTP_10 => $"HTTP/1.0" | HTTP_11 => $"HTTP/1.1" | HTTP_2 => $"HTTP/2.0" | HTTP_3 => $"HTTP/3.0" end.
(** The text [s] frames the request [r], whatever URL its target stands for: method, target
    and version are the first words of the first line; of several lines for one header the
    last counts. *)
Definition frames (s : str) (r : mock) : Prop :=
  exists line rest more hs, first_line s line rest /\ utf8_text line
    /\ wordlist line (mr_method r :: mr_path r :: version_name (mr_version r) :: more) /\ Forall tchar (mr_method r)
    /\ header_block rest hs (mr_body r) /\ map_of hs (mr_headers r).
