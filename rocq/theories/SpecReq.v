(** What is observable of the concrete requests besides their headers.  Nothing here
    models code. *)
From Verif Require Export SpecSign Reqwest Mock.

(** The bytes a reqwest body sends: [None] no body, [Some None] a failing reader. *)
Definition body_content (b : rq_body) : option (option str) :=
  match b with BNone => None | BBytes s => Some (Some s) | BStream o => Some o end.

(** The headers [sign] may touch, given whether date, host and digest can be read. *)
Definition may_change (c : signing_config) (readable : str -> Prop) (h : str) : Prop :=
  h = $"signature" \/ h = $"signature-input"
  \/ ~ readable h /\ (h = $"date" /\ sc_add_date c = true \/ h = $"host" /\ sc_add_host c = true
                      \/ h = $"digest" /\ sc_compute_digest c = true).

(** The headers that cannot be read as text count as absent. *)
Definition rq_readable (r : rq) (h : str) : Prop := exists v vs, hm_get_all (rq_headers r) h = v :: vs /\ plain v.
