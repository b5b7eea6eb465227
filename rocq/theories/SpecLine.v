(** The parts of a request: its URL as text, its headers as a history of writes.
    Nothing here models code. *)
From Verif Require Export SpecQuery SpecReq.

(** A derived component with parameters. *)
Definition derived_named (n : str) (p : list (str * bare)) : component := CDerived (Derived (Item (BString n) p)).
(** Is this component [@query-params]? *)
Definition is_query_params (c : component) : Prop := exists p, c = derived_named $"@query-params" p.

(** ** URL text (URL standard, section 4.5) *)
Inductive userinfo_text : str -> option str -> str -> Prop :=
| user_none : userinfo_text [] None []
| user_name n : n <> [] -> userinfo_text n None (n ++ $"@")
| user_password n p : userinfo_text n (Some p) (n ++ $":" ++ p ++ $"@").
Definition prefixed (c : ascii) (o : option str) (t : str) : Prop :=
  match o with None => t = [] | Some s => t = c :: s end.
Definition port_text (o : option N) (t : str) : Prop :=
  match o with None => t = [] | Some p => exists ds, digits ds p /\ t = ":"%char :: ds end.
(** Without an authority "/." stands before a path that begins with "//". *)
Definition authority_text (u : url) (t : str) : Prop :=
  if u_has_authority u
  then exists a h p, userinfo_text (u_username u) (u_password u) a
         /\ match u_host u with None => h = [] | Some x => h = x end
         /\ port_text (u_port u) p /\ t = $"//" ++ a ++ h ++ p
  else (exists p, u_path u = $"//" ++ p) /\ t = $"/." \/ (forall p, u_path u <> $"//" ++ p) /\ t = [].
Definition url_text (u : url) (t : str) : Prop :=
  exists a q f, authority_text u a /\ prefixed "?" (u_query u) q /\ prefixed "#" (u_fragment u) f
    /\ t = u_scheme u ++ $":" ++ a ++ u_path u ++ q ++ f.

(** The texts of the request line contain no line feed. *)
Definition no_lf (s : str) : Prop := ~ In ch_lf s.
Definition no_lf_opt (o : option str) : Prop := match o with None => True | Some s => no_lf s end.
Definition line_request (method : str) (u : url) : Prop :=
  no_lf method /\ no_lf (u_scheme u) /\ no_lf (u_username u) /\ no_lf_opt (u_password u) /\ no_lf_opt (u_host u)
  /\ no_lf (u_path u) /\ no_lf_opt (u_query u) /\ no_lf_opt (u_fragment u).

(** ** Header histories *)
Definition spelled (n h : str) : Prop := field_name n /\ Forall2 lower_of n h.
Definition same_name (a b : str) : Prop := exists h, Forall2 lower_of a h /\ Forall2 lower_of b h.
(** Writing headers one after the other, under any spelling of their names. *)
Inductive wrote {R} (cr : client_request_like R) : R -> list (str * str) -> R -> Prop :=
| wrote_nil r : wrote cr r [] r
| wrote_cons r n h v ws r' : spelled n h -> wrote cr (cr_set_header cr r h v) ws r' -> wrote cr r ((n, v) :: ws) r'.
Definition last_written (ws : list (str * str)) (n v : str) : Prop :=
  exists before n0 after, ws = before ++ (n0, v) :: after /\ same_name n0 n
                          /\ Forall (fun w => ~ same_name (fst w) n) after.
Definition not_written (ws : list (str * str)) (n : str) : Prop := Forall (fun w => ~ same_name (fst w) n) ws.

(** The first of the values of a header. *)
Definition first_value (m : header_map) (h : str) : option str :=
  match hm_get_all m h with [] => None | v :: _ => Some v end.
