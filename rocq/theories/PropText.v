(** Requests as text: C38 and C49. *)
From Verif Require Import MockFacts Samples Tests.

(** C38: writing a request and reading it back gives the same method, target, headers and
    body (and the URL derived from them). *)
Theorem C38_write_then_read : forall (trace : bool) (up : url_parser) (r : mock) (t : str),
  text_request r -> target_url up (mr_path r) (mr_headers r) (mr_url r) -> loggable trace r ->
  write r = Some t -> from_reader trace up t = Done (Some (as_version HTTP_11 r)).
Proof. exact write_read. Qed.
Print Assumptions C38_write_then_read.
(** What is written: exactly the requests whose header values are visible are, as this text. *)
Theorem C38_text_written : forall (r : mock) (t : str), write r = Some t <-> shown r /\ t = request_text r.
Proof. exact write_iff. Qed.
Print Assumptions C38_text_written.
(** Whatever was read survives being written and read again. *)
Theorem C38_read_then_write_then_read : forall (trace : bool) (up : url_parser) (s t : str) (r : mock),
  from_reader trace up s = Done (Some r) -> write r = Some t -> from_reader trace up t = Done (Some (as_version HTTP_11 r)).
Proof. exact read_write_read. Qed.
Print Assumptions C38_read_then_write_then_read.
(** The parts that [text_request] excludes do not survive: the version ... *)
Theorem C38_version_refuted : exists (up : url_parser) (r r' : mock) (t : str),
  text_request r /\ write r = Some t /\ from_reader true up t = Done (Some r') /\ mr_version r' <> mr_version r.
Proof.
  exists (fun _ => Ok s_url), (as_version HTTP_10 m_req), m_req, (request_text m_req).
  split; [apply text_requestb_ok; reflexivity|]. split; [reflexivity|]. split; [vm_compute; reflexivity|discriminate].
Qed.
Print Assumptions C38_version_refuted.
(** ... repeated header names, and blanks around header values. *)
Theorem C38_headers_refuted : exists (up : url_parser) (a b a' b' : mock) (t u : str),
  mr_headers a = [($"x", $"1"); ($"x", $"2")] /\ write a = Some t /\ from_reader true up t = Done (Some a') /\ mr_headers a' = [($"x", $"2")]
  /\ mr_headers b = [($"x", $" 1 ")] /\ write b = Some u /\ from_reader true up u = Done (Some b') /\ mr_headers b' = [($"x", $"1")].
Proof.
  set (r := fun hs => MockReq HTTP_11 $"GET" s_url $"/" hs None).
  exists (fun _ => Ok s_url), (r [($"x", $"1"); ($"x", $"2")]), (r [($"x", $" 1 ")]), (r [($"x", $"2")]), (r [($"x", $"1")]).
  exists (request_text (r [($"x", $"1"); ($"x", $"2")])), (request_text (r [($"x", $" 1 ")])). repeat split; vm_compute; reflexivity.
Qed.
Print Assumptions C38_headers_refuted.
Example C38_case :
  text_request m_signed /\ target_url (fun _ => Ok s_url) (mr_path m_signed) (mr_headers m_signed) (mr_url m_signed) /\ loggable true m_signed
  /\ write m_signed = Some (request_text m_signed)
  /\ from_reader true (fun _ => Ok s_url) (request_text m_signed) = Done (Some m_signed).
Proof.
  assert (T : text_request m_signed) by (apply text_requestb_ok; vm_compute; reflexivity).
  split; [exact T|]. split; [left; reflexivity|]. split; [intros _; apply utf8_valid_iff; reflexivity|].
  split; [apply write_iff; split; [now apply text_shown|reflexivity]|]. vm_compute. reflexivity.
Qed.

(** C49: reading a malformed request is an error value, except in these cases: trace logging
    is enabled and the body is not text, or the target is relative and the URL formed with
    the Host header does not parse. *)
Theorem C49_reading_panics_iff : forall (trace : bool) (up : url_parser) (s : str),
  from_reader trace up s = Panic <->
  exists r, frames s r /\ (~ loggable trace r \/
    up (mr_path r) = Err RelativeUrlWithoutBase
    /\ exists host e, first_value (mr_headers r) $"host" = Some host /\ Forall (fun c => visible c \/ c = ascii_of_nat 9) host
                      /\ up ($"http://" ++ host ++ mr_path r) = Err e).
Proof. exact read_panics. Qed.
Print Assumptions C49_reading_panics_iff.
(** What reading accepts. *)
Theorem C49_reading_accepts_iff : forall (trace : bool) (up : url_parser) (s : str) (r : mock),
  from_reader trace up s = Done (Some r) <->
  frames s r /\ loggable trace r /\ target_url up (mr_path r) (mr_headers r) (mr_url r).
Proof. exact read_accepts. Qed.
Print Assumptions C49_reading_accepts_iff.
(** So the property fails. *)
Theorem C49_reading_panics_refuted : exists (up : url_parser) (s t : str),
  from_reader true up s = Panic /\ (exists r, from_reader false up s = Done (Some r)) /\ from_reader false up t = Panic.
Proof.
  exists (fun x => if str_eqb x $"/" then Err RelativeUrlWithoutBase else if str_eqb x $"http://a/" then Ok s_url else Err UrlOther).
  exists (request_text (MockReq HTTP_11 $"GET" s_url $"/" [($"host", $"a")] (Some [ascii_of_nat 255]))).
  exists (request_text (MockReq HTTP_11 $"GET" s_url $"/" [($"host", $"a b")] None)).
  split; [vm_compute; reflexivity|]. split; [eexists; vm_compute; reflexivity|vm_compute; reflexivity].
Qed.
Print Assumptions C49_reading_panics_refuted.
(** Every well-formed request with an unprintable body is such an input. *)
Theorem C49_binary_body_panics_when_tracing : forall (up : url_parser) (r : mock) (b : str),
  text_request r -> mr_body r = Some b -> ~ utf8_text b -> from_reader true up (request_text r) = Panic.
Proof. exact not_loggable_panics. Qed.
Print Assumptions C49_binary_body_panics_when_tracing.
Example C49_case : let r := MockReq HTTP_11 $"GET" s_url $"/" [($"host", $"a")] (Some [ascii_of_nat 255]) in
  text_request r /\ ~ utf8_text [ascii_of_nat 255] /\ frames (request_text r) r /\ ~ loggable true r.
Proof.
  assert (N : ~ utf8_text [ascii_of_nat 255]) by (rewrite <- utf8_valid_iff; discriminate).
  split; [apply text_requestb_ok; reflexivity|]. split; [exact N|]. split; [apply frames_iff; vm_compute; reflexivity|].
  intro L. now apply N, L.
Qed.
