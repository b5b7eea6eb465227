(** src/reqwest_impls.rs: [reqwest::Request] and [reqwest::blocking::Request]. *)
From Verif Require Export Str Http Component Canonicalize Signing.

(** A request body.  [BStream (Some b)]: a reader/stream whose content is [b];
    [BStream None]: a reader that fails. *)
Inductive rq_body := BNone | BBytes (b : str) | BStream (content : option str).

(** The parts of a reqwest request the crate touches. *)
Record rq := Rq { rq_method : str; rq_url : url; rq_headers : header_map; rq_bod : rq_body }.

(** src/reqwest_impls.rs:26-28 and 58-60 [host]. *)
Definition rq_host (r : rq) : option str := u_host (rq_url r).

(** src/reqwest_impls.rs:6-18 and 38-50 [derive]. *)
Definition rq_derive (r : rq) (c : component) : outcome (option str) :=
  match c with
  | CHeader h => Done (opt_bind (hm_get (rq_headers r) h) hvalue_to_str)
  | CDerived d => dc_derive d (rq_host r) (rq_method r) (rq_url r)
  end.

(** src/reqwest_impls.rs:20-22 and 52-54 [has_component]. *)
Definition rq_has_component (r : rq) (c : component) : outcome bool :=
  do v <- rq_derive r c; Done (match v with Some _ => true | None => false end).

(** src/reqwest_impls.rs:32-34 and 65-67 [set_header]. *)
Definition rq_set_header (r : rq) (h v : str) : rq :=
  Rq (rq_method r) (rq_url r) (hm_insert (rq_headers r) h v) (rq_bod r).

(** src/reqwest_impls.rs:29-31: the asynchronous request ([Body::as_bytes] is [None]
    for a stream). *)
Definition rq_async_digest (r : rq) (d : http_digest) : rq * option str :=
  (r, match rq_bod r with BBytes b => Some (dg_digest d b) | _ => None end).

(** src/reqwest_impls.rs:61-64: the blocking request; [Body::buffer] reads the
    stream and keeps its content in memory. *)
Definition rq_blocking_digest (r : rq) (d : http_digest) : rq * option str :=
  match rq_bod r with
  | BNone => (r, None)
  | BBytes b => (r, Some (dg_digest d b))
  | BStream (Some b) => (Rq (rq_method r) (rq_url r) (rq_headers r) (BBytes b), Some (dg_digest d b))
  | BStream None => (r, None)
  end.

(** The trait implementations, src/reqwest_impls.rs:5-35 and 37-68. *)
Definition rq_rl : request_like rq := RequestLike rq rq_derive rq_has_component.
Definition rq_async : client_request_like rq := ClientRequestLike rq rq_rl rq_host rq_set_header rq_async_digest.
Definition rq_blocking : client_request_like rq := ClientRequestLike rq rq_rl rq_host rq_set_header rq_blocking_digest.
