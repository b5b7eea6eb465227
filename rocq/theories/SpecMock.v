(** Specifications about MockRequest.  Nothing here models code. *)
From Verif Require Export SpecSign Mock.

(** A correct Digest header for a body. *)
Definition digest_header (body : str) : str := $"SHA-256=" ++ b64_bits (sha256 body).
(** The request with another body and a Digest header for it. *)
Definition replace_body (r : mock) (body : str) : mock :=
  mr_set_header (MockReq (mr_version r) (mr_method r) (mr_url r) (mr_path r) (mr_headers r) (Some body))
    $"digest" (digest_header body).
