(** What an accepted request shares with a signed one.  Nothing here models code. *)
From Verif Require Export SpecMore SpecUrl.

(** A signing configuration that covers method, URL and body: the body by the Digest
    header that [sign] adds.  ([@query-params] is left out because of C05.) *)
Definition covers_message (c : signing_config) : Prop :=
  In (derived_named $"@method" []) (sc_components c) /\ In (derived_named $"@target-uri" []) (sc_components c)
  /\ In (CHeader $"digest") (sc_components c) /\ (forall q, In q (sc_components c) -> ~ is_query_params q)
  /\ sc_compute_digest c = true /\ (sc_digest c = sha256_digest \/ sc_digest c = sha512_digest).

(** A method without line feeds and a URL that was parsed. *)
Definition proper_line (hp : host_parser) (method : str) (u : url) : Prop := ~ In ch_lf method /\ exists t, special_url hp t u.

(** Two bodies with the same hash. *)
Definition same_hash (d : http_digest) (b b' : str) : Prop :=
  d = sha256_digest /\ sha256 b = sha256 b' \/ d = sha512_digest /\ sha512 b = sha512 b'.

(** The body of a reqwest request that [sign] can read. *)
Definition read_body (cr : client_request_like rq) (r : rq) (b : str) : Prop :=
  rq_bod r = BBytes b \/ cr = rq_blocking /\ rq_bod r = BStream (Some b).

(** The verification time is within the validity given to [sign]. *)
Definition valid_at {R} (e : signing_event R) (ns : Z) : Prop :=
  let now := seconds (se_sys (ev_env e)) in
  (forall t, created_at (ev_config e) now = Some t -> (t <= seconds ns)%Z)
  /\ (forall t, expires_at (ev_config e) now = Some t -> (seconds ns <= t)%Z).
