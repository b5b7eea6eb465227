(** Requests cut short.  Nothing here models code. *)
From Verif Require Export SpecIo SpecRun.

(** [q] is [r], except for the signature headers and perhaps the end of the body. *)
Definition cut_request (r q : mock) : Prop :=
  mr_method q = mr_method r /\ mr_path q = mr_path r /\ mr_url q = mr_url r
  /\ (forall h, h <> $"signature" -> h <> $"signature-input" -> first_value (mr_headers q) h = first_value (mr_headers r) h)
  /\ (mr_body q = None \/ exists b x, mr_body r = Some (b ++ x) /\ mr_body q = Some b).
