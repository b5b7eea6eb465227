(** URLs whose scheme is not special, after the URL standard and the [url] crate, and the
    forms of request targets of RFC 7230, section 5.3.  Nothing here models code. *)
From Verif Require Export SpecHost OtherUrl.

(** In the query "'" stays. *)
Definition other_query_set : string := """#<>".
(** Only control characters and bytes outside ASCII are encoded; a space stays. *)
Inductive controls_encoded : str -> str -> Prop :=
| ce_nil : controls_encoded [] []
| ce_stay c s t : (32 <= N_of_ascii c <= 126)%N -> controls_encoded s t -> controls_encoded (c :: s) (c :: t)
| ce_byte c s t : ~ (32 <= N_of_ascii c <= 126)%N -> controls_encoded s t ->
    controls_encoded (c :: s) ("%"%char :: hex_upper (N_of_ascii c / 16) :: hex_upper (N_of_ascii c mod 16) :: t).
(** Segments between "/"; a backslash is a character like any other. *)
Inductive fwd_segments : str -> list str -> Prop :=
| fwd_last s : ~ In "/"%char s -> fwd_segments s [s]
| fwd_more a s l : ~ In "/"%char a -> fwd_segments s l -> fwd_segments (a ++ "/"%char :: s) (a :: l).
Definition fwd_path_of (s t : str) : Prop :=
  exists segs l d, fwd_segments s segs /\ Forall2 (encoded path_set) segs l
    /\ (reached l d /\ (exists l' x, l = l' ++ [x] /\ (dot x \/ dots x)) /\ t = directory_text d
        \/ exists l' x, l = l' ++ [x] /\ reached l' d /\ ~ dot x /\ ~ dots x /\ t = directory_text d ++ x).
(** Hosts are not mapped, and may contain what is forbidden elsewhere. *)
Inductive opaque_host_of : str -> str -> Prop :=
| opaque_ipv6 s p w : ipv6_reads s p -> ipv6_written p w -> opaque_host_of ($"[" ++ s ++ $"]") ($"[" ++ w ++ $"]")
| opaque_text s t : Forall (fun c => ~ In (N_of_ascii c) [0; 9; 10; 13]%N /\ ~ one_of " #/:<>?@[\]^|" c) s ->
    controls_encoded s t -> opaque_host_of s t.
(** [other_authority scheme a pt u]: the text [a], which ends in the port [pt], is the
    authority of [u].  Without a host there is no user name, no password and no port. *)
Inductive other_authority (scheme : str) : str -> str -> url -> Prop :=
| oa_no_host a u : In a [[]; $"@"; $":@"] -> u_username u = [] -> u_password u = None -> u_host u = None -> u_port u = None ->
    other_authority scheme a [] u
| oa_plain h pt host u : ~ In "@"%char (h ++ pt) -> u_username u = [] -> u_password u = None ->
    host_text h pt -> opaque_host_of h host -> u_host u = Some host -> port_of scheme pt (u_port u) ->
    other_authority scheme (h ++ pt) pt u
| oa_user c h pt host u : credentials c (u_username u) (u_password u) -> ~ In "@"%char (h ++ pt) ->
    host_text h pt -> opaque_host_of h host -> u_host u = Some host -> port_of scheme pt (u_port u) ->
    other_authority scheme (c ++ "@"%char :: h ++ pt) pt u.
Definition no_authority (u : url) : Prop :=
  u_has_authority u = false /\ u_username u = [] /\ u_password u = None /\ u_host u = None /\ u_port u = None.
(** [other_url s u]: the text [s] stands for the URL [u], whose scheme is neither special nor
    "file".  Behind a port a backslash begins the path; "@" alone is an authority only if
    nothing follows. *)
Definition other_url (s : str) (u : url) : Prop :=
  exists t sch before q f,
    url_input s t /\ t = sch ++ $":" ++ before ++ q ++ f
    /\ scheme_text sch /\ Forall2 lower_of sch (u_scheme u) /\ ~ special (u_scheme u) /\ u_scheme u <> $"file"
    /\ Forall (fun c => c <> "?"%char /\ c <> "#"%char) before
    /\ tail_of "?" other_query_set (u_query u) q /\ ~ In "#"%char q
    /\ tail_of "#" fragment_set (u_fragment u) f
    /\ ((exists a pt b path, before = $"//" ++ a ++ b ++ path /\ u_has_authority u = true
          /\ ~ In "/"%char (a ++ b) /\ other_authority (u_scheme u) a pt u
          /\ (b = [] \/ pt <> [] /\ ~ In "@"%char b /\ exists b', b = "\"%char :: b')
          /\ (a = $"@" -> path ++ q ++ f = [])
          /\ ((path = [] \/ exists path', path = "/"%char :: path')
              /\ (b ++ path = [] /\ u_path u = []
                  \/ (exists p, b ++ path = "/"%char :: p /\ fwd_path_of p (u_path u))
                  \/ b <> [] /\ fwd_path_of (b ++ path) (u_path u))))
        \/ (exists p, before = "/"%char :: p /\ (forall p', p <> "/"%char :: p') /\ no_authority u /\ fwd_path_of p (u_path u))
        \/ ((forall p, before <> "/"%char :: p) /\ no_authority u /\ controls_encoded before (u_path u))).

(** [any_url hp s u]: the text [s] stands for the URL [u], whose scheme is not "file". *)
Definition any_url (hp : host_parser) (s : str) (u : url) : Prop := special_url hp s u \/ other_url s u.

(** The parser of "file" URLs yields URLs with that scheme, and asks for no base. *)
Definition file_laws (fp : str -> result url url_error) : Prop :=
  forall rest, fp rest <> Err RelativeUrlWithoutBase /\ forall u, fp rest = Ok u -> u_scheme u = $"file".

(** ** Request targets *)
(** What may stand in the host of a URL: visible, none of "/\?#@". *)
Definition plain_part (s : str) : Prop := Forall (fun c => (33 <= N_of_ascii c <= 126)%N /\ ~ slash c /\ ~ one_of "?#@" c) s.
(** The request with another URL. *)
Definition with_url (r : mock) (u : url) : mock := MockReq (mr_version r) (mr_method r) u (mr_path r) (mr_headers r) (mr_body r).
(** The authority-form (RFC 7230, section 5.3.3) of a host that begins with a letter: name,
    colon and port.  [n] is the name in lower case. *)
Definition authority_form (t n port : str) : Prop :=
  exists name, t = name ++ ":"%char :: port /\ scheme_text name /\ Forall2 lower_of name n /\ ~ special n /\ n <> $"file"
    /\ Forall digit port.
