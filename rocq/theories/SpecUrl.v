(** URL texts, after the URL standard (sections 4.3 to 4.5) and the [url] crate.  Nothing
    here models code. *)
From Verif Require Export SpecText UrlParse.

(** A text without some of its bytes. *)
Inductive without (P : ascii -> Prop) : str -> str -> Prop :=
| without_nil : without P [] []
| without_drop c s t : P c -> without P s t -> without P (c :: s) t
| without_keep c s t : ~ P c -> without P s t -> without P (c :: s) (c :: t).
(** Control characters and spaces at the ends, and tabs and line breaks anywhere, do not count. *)
Definition low (c : ascii) : Prop := (N_of_ascii c <= 32)%N.
Definition tab_break (c : ascii) : Prop := In (N_of_ascii c) [9%N; 10%N; 13%N].
Definition url_input (s t : str) : Prop :=
  exists a m b, s = a ++ m ++ b /\ Forall low a /\ Forall low b
    /\ (forall c x, m = c :: x -> ~ low c) /\ (forall c x, m = x ++ [c] -> ~ low c) /\ without tab_break m t.

(** Percent-encoding: printable ASCII characters that are not in the set stay. *)
Definition stays (set : string) (c : ascii) : Prop := (33 <= N_of_ascii c <= 126)%N /\ ~ one_of set c.
Inductive encoded (set : string) : str -> str -> Prop :=
| encoded_nil : encoded set [] []
| encoded_stay c s t : stays set c -> encoded set s t -> encoded set (c :: s) (c :: t)
| encoded_byte c s t : ~ stays set c -> encoded set s t ->
    encoded set (c :: s) ("%"%char :: hex_upper (N_of_ascii c / 16) :: hex_upper (N_of_ascii c mod 16) :: t).
Definition path_set : string := """<>`#?{}".
Definition userinfo_set : string := """<>`#?{}/:;=@[\]^|".
Definition query_set : string := """#<>'".
Definition fragment_set : string := """<>`".

(** Segments between slashes, of either kind. *)
Definition slash (c : ascii) : Prop := c = "/"%char \/ c = "\"%char.
Inductive segments : str -> list str -> Prop :=
| segments_last s : Forall (fun c => ~ slash c) s -> segments s [s]
| segments_more a c s l : Forall (fun c => ~ slash c) a -> slash c -> segments s l -> segments (a ++ c :: s) (a :: l).
(** Dots, also percent-encoded. *)
Definition dot (s : str) : Prop := In s [$"."; $"%2e"; $"%2E"].
Definition dots (s : str) : Prop := exists a b, dot a /\ dot b /\ s = a ++ b.
Definition drive (s : str) : Prop := exists a b, s = [a; b] /\ letter a /\ (b = ":"%char \/ b = "|"%char).
(** Directories reached after some segments; ".." does not leave the root, nor (in this
    parser, whatever the scheme) a drive letter. *)
Inductive reached : list str -> list str -> Prop :=
| reached_root : reached [] []
| reached_enter l d x : reached l d -> ~ dot x -> ~ dots x -> reached (l ++ [x]) (d ++ [x])
| reached_stay l d x : reached l d -> dot x -> reached (l ++ [x]) d
| reached_up l d y x : reached l (d ++ [y]) -> dots x -> ~ drive y -> reached (l ++ [x]) d
| reached_drive l d y x : reached l (d ++ [y]) -> dots x -> drive y -> reached (l ++ [x]) (d ++ [y])
| reached_top l x : reached l [] -> dots x -> reached (l ++ [x]) [].
Definition directory_text (d : list str) : str := $"/" ++ List.concat (map (fun s => s ++ $"/") d).
(** The path a text stands for: "/" and the directories and file reached. *)
Definition path_of (s t : str) : Prop :=
  exists segs l d, segments s segs /\ Forall2 (encoded path_set) segs l
    /\ (reached l d /\ (exists l' x, l = l' ++ [x] /\ (dot x \/ dots x)) /\ t = directory_text d
        \/ exists l' x, l = l' ++ [x] /\ reached l' d /\ ~ dot x /\ ~ dots x /\ t = directory_text d ++ x).

(** Schemes and their ports. *)
Definition scheme_port (scheme : str) (p : N) : Prop :=
  In (scheme, p) [($"http", 80); ($"https", 443); ($"ws", 80); ($"wss", 443); ($"ftp", 21)]%N.
Definition special (scheme : str) : Prop := exists p, scheme_port scheme p.
Definition scheme_text (s : str) : Prop :=
  (exists c s', s = c :: s' /\ letter c) /\ Forall (fun c => letter c \/ digit c \/ one_of "+-." c) s.

(** User name and password; an empty password counts as none. *)
Inductive credentials : str -> str -> option str -> Prop :=
| cred_name n n' : ~ In ":"%char n -> encoded userinfo_set n n' -> credentials n n' None
| cred_empty n n' : ~ In ":"%char n -> encoded userinfo_set n n' -> credentials (n ++ $":") n' None
| cred_both n n' p p' : ~ In ":"%char n -> encoded userinfo_set n n' -> p <> [] -> encoded userinfo_set p p' ->
    credentials (n ++ ":"%char :: p) n' (Some p').
(** A host before its port: colons only between square brackets.  The first truth value
    says whether a bracket is open before the text, the second after it. *)
Inductive bracketed : bool -> str -> bool -> Prop :=
| br_nil b : bracketed b [] b
| br_open b s e : bracketed true s e -> bracketed b ("["%char :: s) e
| br_close b s e : bracketed false s e -> bracketed b ("]"%char :: s) e
| br_colon s e : bracketed true s e -> bracketed true (":"%char :: s) e
| br_other b c s e : c <> "["%char -> c <> "]"%char -> c <> ":"%char -> bracketed b s e -> bracketed b (c :: s) e.
Definition host_text (h port : str) : Prop := h <> [] /\ exists e, bracketed false h e /\ (port = [] \/ e = false).
(** A port; the default port of the scheme counts as none. *)
Inductive port_of (scheme : str) : str -> option N -> Prop :=
| port_absent : port_of scheme [] None
| port_empty : port_of scheme $":" None
| port_default ds p : ds <> [] -> numeral_value 0 ds = Some p -> scheme_port scheme p -> port_of scheme (":"%char :: ds) None
| port_given ds p : ds <> [] -> numeral_value 0 ds = Some p -> (p <= 65535)%N -> ~ scheme_port scheme p ->
    port_of scheme (":"%char :: ds) (Some p).
Inductive authority_of (hp : host_parser) (scheme : str) : str -> url -> Prop :=
| authority_plain h pt u : ~ In "@"%char (h ++ pt) -> u_username u = [] -> u_password u = None ->
    host_text h pt -> hp h = u_host u -> u_host u <> None -> port_of scheme pt (u_port u) ->
    authority_of hp scheme (h ++ pt) u
| authority_user c h pt u : credentials c (u_username u) (u_password u) -> ~ In "@"%char (h ++ pt) ->
    host_text h pt -> hp h = u_host u -> u_host u <> None -> port_of scheme pt (u_port u) ->
    authority_of hp scheme (c ++ "@"%char :: h ++ pt) u.
(** The part after a delimiter, encoded. *)
Definition tail_of (c : ascii) (set : string) (o : option str) (t : str) : Prop :=
  match o with None => t = [] | Some e => exists s, t = c :: s /\ encoded set s e end.
(** [special_url hp s u]: the text [s] stands for the URL [u] with a special scheme. *)
Definition special_url (hp : host_parser) (s : str) (u : url) : Prop :=
  exists t sch sl auth path q f,
    url_input s t /\ t = sch ++ $":" ++ sl ++ auth ++ path ++ q ++ f
    /\ scheme_text sch /\ Forall2 lower_of sch (u_scheme u) /\ special (u_scheme u)
    /\ Forall slash sl /\ Forall (fun c => ~ slash c /\ c <> "?"%char /\ c <> "#"%char) auth
    /\ authority_of hp (u_scheme u) auth u /\ u_has_authority u = true
    /\ Forall (fun c => c <> "?"%char /\ c <> "#"%char) path
    /\ (path = [] /\ u_path u = $"/" \/ exists c path', path = c :: path' /\ slash c /\ path_of path' (u_path u))
    /\ tail_of "?" query_set (u_query u) q /\ ~ In "#"%char q
    /\ tail_of "#" fragment_set (u_fragment u) f.

(** What a parser of host names is expected to guarantee: the text of a host is not empty,
    printable, without delimiters, its brackets are closed, and it stands for itself. *)
Record host_laws (hp : host_parser) : Prop := HostLaws {
  hl_text : forall h h', hp h = Some h' -> h' <> []
              /\ Forall (fun c => (33 <= N_of_ascii c <= 126)%N /\ ~ slash c /\ ~ one_of "?#@" c) h';
  hl_brackets : forall h h', hp h = Some h' -> bracketed false h' false;
  hl_again : forall h h', hp h = Some h' -> hp h' = Some h'
}.

(** The parser of the other schemes: never without a scheme, and the scheme is the one given. *)
Definition scheme_laws (sp : scheme_parser) : Prop := forall sch rest, ~ special sch ->
  sp sch rest <> Err RelativeUrlWithoutBase /\ forall u, sp sch rest = Ok u -> u_scheme u = sch.

Definition has_scheme (s : str) : Prop := exists t sch rest, url_input s t /\ t = sch ++ ":"%char :: rest /\ scheme_text sch.

(** ** Targets *)
(** A path in normal form, without its first slash: nothing to encode, no backslash and no
    dot segments. *)
Definition path_char (c : ascii) : Prop := stays path_set c /\ c <> "\"%char.
Definition normal_target (p : str) : Prop :=
  Forall path_char p /\ forall segs, segments p segs -> Forall (fun s => ~ dot s /\ ~ dots s) segs.
(** A Host header that is a host with or without a port. *)
Definition plain_host (hp : host_parser) (v host : str) (port : option N) : Prop :=
  exists h pt, v = h ++ pt /\ host_text h pt /\ Forall (fun c => (33 <= N_of_ascii c <= 126)%N /\ ~ slash c /\ ~ one_of "?#@" c) v
    /\ hp h = Some host /\ port_of $"http" pt port.
(** A request target: path, query and fragment, as written. *)
Definition target_parts (t p q f : str) : Prop :=
  t = "/"%char :: p ++ q ++ f /\ Forall (fun c => c <> "?"%char /\ c <> "#"%char) p
  /\ (q = [] \/ exists x, q = "?"%char :: x) /\ ~ In "#"%char q /\ (f = [] \/ exists x, f = "#"%char :: x)
  /\ Forall (fun c => ~ low c) t.
(** The request with another target. *)
Definition retarget (r : mock) (t : str) : mock := MockReq (mr_version r) (mr_method r) (mr_url r) t (mr_headers r) (mr_body r).
