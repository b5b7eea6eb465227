(** Requests that arrive at an actix-web server.  Nothing here models code. *)
From Verif Require Export Actix SpecFlow.

(** The payload in full. *)
Definition payload_is (r : actix) (body : str) : Prop :=
  exists chunks, ax_payload r = map Some chunks /\ body = List.concat chunks.

(** The text of the target of a request line: its parts, those that are there. *)
Inductive part (before after : str) : option str -> str -> Prop :=
| part_absent : part before after None []
| part_there x : part before after (Some x) (before ++ x ++ after).
Definition target_text (u : uri) (t : str) : Prop :=
  exists s a q, part [] $"://" (ur_scheme u) s /\ part [] [] (ur_authority u) a /\ part $"?" [] (ur_query u) q
    /\ t = s ++ a ++ ur_path u ++ q.

(** The value of each derived component, by its name. *)
Inductive actix_value (r : actix) : str -> str -> Prop :=
| av_request_target : actix_value r $"@request-target" (ax_method r ++ $" " ++ ur_path (ax_uri r))
| av_method : actix_value r $"@method" (ax_method r)
| av_target_uri t : target_text (ax_uri r) t -> actix_value r $"@target-uri" t
| av_authority a : ur_authority (ax_uri r) = Some a -> actix_value r $"@authority" a
| av_scheme s : ur_scheme (ax_uri r) = Some s -> actix_value r $"@scheme" s
| av_path : actix_value r $"@path" (ur_path (ax_uri r))
| av_query q : ur_query (ax_uri r) = Some q -> actix_value r $"@query" ("?"%char :: q).

(** The target of the request line is a path, as clients send it to servers. *)
Definition origin_form (u : uri) : Prop :=
  ur_scheme u = None /\ ur_authority u = None /\ exists p, ur_path u = "/"%char :: p.

(** The same message as a MockRequest and at the actix-web server. *)
Record same_request (m : mock) (r : actix) : Prop := SameRequest {
  sr_method : ax_method r = mr_method m;
  sr_path : ur_path (ax_uri r) = u_path (mr_url m);
  sr_query : ur_query (ax_uri r) = u_query (mr_url m);
  sr_headers : forall h, first_value (ax_headers r) h = first_value (mr_headers m) h;
  sr_body : match mr_body m with
            | None => payload_is r []
            | Some b => payload_is r b
            end
}.

(** A header field that is absent, or whose value can be read. *)
Definition legible (m : mock) (h : str) : Prop := forall v, first_value (mr_headers m) h = Some v -> plain v.
(** Derived components that need more than method, path and query as sent. *)
Definition reconstructed : list str := [$"@request-target"; $"@target-uri"; $"@authority"; $"@scheme"; $"@query-params"].
Definition needs_more (q : component) : Prop :=
  match q with CHeader _ => False | CDerived d => exists n, it_bare (dc_item d) = BString n /\ In n reconstructed end.
Definition as_sent (m : mock) (q : component) : Prop :=
  (forall h, q = CHeader h -> legible m h) /\ ~ needs_more q.

(** A reqwest request as it arrives: the method, path, query, headers and body as sent. *)
Record arrives (q : rq) (r : actix) : Prop := Arrives {
  ar_method : ax_method r = rq_method q;
  ar_path : ur_path (ax_uri r) = u_path (rq_url q);
  ar_query : ur_query (ax_uri r) = u_query (rq_url q);
  ar_headers : forall h, first_value (ax_headers r) h = first_value (rq_headers q) h;
  ar_body : match rq_bod q with
            | BNone => payload_is r []
            | BBytes b => payload_is r b
            | BStream (Some b) => payload_is r b
            | BStream None => False
            end
}.
Definition nonempty_body (q : rq) : Prop := rq_bod q <> BBytes [] /\ rq_bod q <> BStream (Some []).
