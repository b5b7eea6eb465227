(** The values that draft-ietf-httpbis-message-signatures-17 (sections 2.1 to 2.3) gives the
    components of a request with some method, URL and headers; the header list has one entry
    per header line.  Only components without parameters are described.  Nothing here models
    code. *)
From Verif Require Export SpecUrl SpecLine SpecSign.

(** Section 2.1: the values of a field are stripped of spaces and tabs at both ends, then
    joined with a comma and a space. *)
Definition blank (c : ascii) : Prop := c = " "%char \/ c = "009"%char.
Definition stripped (s t : str) : Prop :=
  (exists a b, Forall blank a /\ Forall blank b /\ s = a ++ t ++ b)
  /\ (forall c x, t = c :: x -> ~ blank c) /\ (forall c x, t = x ++ [c] -> ~ blank c).
Fixpoint comma_spaced (l : list str) : str :=
  match l with
  | [] => []
  | x :: l' => match l' with [] => x | _ :: _ => x ++ $", " ++ comma_spaced l' end
  end.
(** The host, with the port unless it is the default one of the scheme. *)
Definition host_port (u : url) (t : str) : Prop :=
  exists h p, u_host u = Some h /\ port_text (u_port u) p /\ t = h ++ p.

(** The path; an empty one is sent as "/". *)
Definition sent_path (u : url) : str := match u_path u with [] => $"/" | p => p end.

Section Draft.
  Variables (method : str) (u : url) (hs : header_map).
  Inductive draft_value : component -> str -> Prop :=
  | dv_method : draft_value (derived_named $"@method" []) method
  (** The target URI: HTTP leaves out user information and fragment. *)
  | dv_target_uri a q : host_port u a -> prefixed "?" (u_query u) q ->
      draft_value (derived_named $"@target-uri" []) (u_scheme u ++ $"://" ++ a ++ sent_path u ++ q)
  | dv_authority a : host_port u a -> draft_value (derived_named $"@authority" []) a
  | dv_scheme : draft_value (derived_named $"@scheme" []) (u_scheme u)
  (** The target of the request line in origin form. *)
  | dv_request_target q : prefixed "?" (u_query u) q -> draft_value (derived_named $"@request-target" []) (sent_path u ++ q)
  | dv_path : draft_value (derived_named $"@path" []) (sent_path u)
  (** The query with its question mark; the question mark alone if there is no query. *)
  | dv_query q : u_query u = Some q -> draft_value (derived_named $"@query" []) ("?"%char :: q)
  | dv_no_query : u_query u = None -> draft_value (derived_named $"@query" []) $"?"
  | dv_field h vs : hm_get_all hs h <> [] -> Forall2 stripped (hm_get_all hs h) vs -> draft_value (CHeader h) (comma_spaced vs).

  (** Section 2.3. *)
  Definition draft_base (cs : list component) (p : list (str * bare)) (base : str) : Prop :=
    exists ids vals sp,
      Forall2 identifier_text cs ids /\ Forall2 draft_value cs vals
      /\ inner_text (map component_item cs) p sp
      /\ base = lines (map (fun iv => fst iv ++ [":"%char; " "%char] ++ snd iv) (combine ids vals)
                       ++ [s2b """@signature-params"": " ++ sp]).

  (** Method, scheme and path; the target URI of a URL without user information and fragment;
      the query of a URL that has one; a field of visible ASCII on a single line, without
      blanks around it. *)
  Inductive conforming : component -> Prop :=
  | cf_method : conforming (derived_named $"@method" [])
  | cf_target_uri : u_username u = [] -> u_password u = None -> u_fragment u = None -> conforming (derived_named $"@target-uri" [])
  | cf_scheme : conforming (derived_named $"@scheme" [])
  | cf_path : conforming (derived_named $"@path" [])
  | cf_query : u_query u <> None -> conforming (derived_named $"@query" [])
  | cf_field h v : hm_get_all hs h = [v] -> stripped v v -> plain v -> conforming (CHeader h).
  (** The authority of a URL with the default port. *)
  Definition default_authority (c : component) : Prop := c = derived_named $"@authority" [] /\ u_port u = None.
End Draft.

(** A URL with a host and a path that is not empty. *)
Definition web_url (u : url) : Prop := u_has_authority u = true /\ u_host u <> None /\ u_path u <> [].
(** No line feeds in header values. *)
Definition one_line_fields (hs : header_map) : Prop := Forall (fun x => no_lf (snd x)) hs.

(** Section 2.3: the types of the signature parameters. *)
Definition is_integer (b : bare) : Prop := exists z, b = BInteger z.
Definition is_string (b : bare) : Prop := exists s, b = BString s.
Definition draft_params (p : list (str * bare)) : Prop :=
  forall k b, In (k, b) p ->
    (k = $"created" \/ k = $"expires" -> is_integer b)
    /\ (In k [$"nonce"; $"alg"; $"keyid"; $"tag"] -> is_string b).
