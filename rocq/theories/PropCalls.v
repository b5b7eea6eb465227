(** All that verify accepts was signed: C101. *)
From Verif Require Import SpecCalls CallFacts PropOpt PropCut PropTail PropForm Samples MockFacts VerifyFacts RunFacts OptFacts GrowFacts SpecMock MoreVerify SpecOther UrlParse OtherUrl.

(** C101: whatever runs of sign were made, with any options, keys and requests, whatever text verify accepts agrees with one of
    them: it covers the components that run covered, with the values that they had there.  Or it is a forgery. *)
Theorem C101_accepted_was_signed : forall (w : world) (calls : list sign_command) (ov : opt) (t : str) (q : mock) (se : sign_env) (ve : verify_env),
  Forall (call_made w) calls -> parses_lines (w_url w) -> (forall k cs p, In k calls -> given (call_opts k) (Some cs) -> In p cs -> ~ is_query_params p) ->
  op_mode ov = MVerify -> sys_clock_ok (ve_sys ve) -> run_request w ov t q -> run w ov t se ve = Done (Ok []) ->
  (exists k, In k calls /\ agrees_with w k ov q (seconds (ve_sys ve))) \/ forged_text w calls ov q.
Proof. exact accepted_from_calls. Qed.
Print Assumptions C101_accepted_was_signed.
(** The parser of C75 and C98 makes no URL with a line feed. *)
Theorem C101_parsed_lines : forall (hp : host_parser) (fp : str -> result url url_error), host_laws hp -> file_laws fp ->
  (forall rest u, fp rest = Ok u -> line_request [] u) -> parses_lines (url_parse hp (parse_other fp)).
Proof. exact parser_lines. Qed.
Print Assumptions C101_parsed_lines.

(** A run and the text it wrote, in a world with that parser: verify accepts it, and accepts no other method. *)
Definition parsing_world : world :=
  World (fun _ => Some toy_pem) (RingKeys Some Some Some) (Crypto (fun _ _ _ m => m) (fun _ _ m t => str_eqb t m)) f_parse false.
Definition site : url := Url $"http" true [] None (Some $"example.com") None $"/foo" None None.
Definition bare_call : sign_command := SignCommand (toy_opts MSign) (request_text bare_req) m_senv (with_url bare_req site).
Example C101_case : Forall (call_made parsing_world) [bare_call] /\ parses_lines (w_url parsing_world)
  /\ (forall k cs p, In k [bare_call] -> given (call_opts k) (Some cs) -> In p cs -> ~ is_query_params p)
  /\ exists out q, run_request parsing_world (toy_opts MVerify) out q /\ run parsing_world (toy_opts MVerify) out m_senv m_venv = Done (Ok [])
     /\ run parsing_world (toy_opts MVerify) ($"PUT" ++ skipn 3 out) m_senv m_venv = Done (Err VSig).
Proof.
  set (out := match main parsing_world (toy_opts MSign) (request_text bare_req) m_senv m_venv with Done (t, _) => t | Panic => [] end).
  split; [|split; [|split]].
  - constructor; [|constructor]. split; [reflexivity|]. split; [vm_compute; intuition discriminate|].
    split; [exists (request_text bare_req); split; [reflexivity|]; apply read_accepts; vm_compute; reflexivity|].
    exists m_venv, out. vm_compute. reflexivity.
  - apply parser_lines; [exact f_hosts_laws|exact f_files_laws|discriminate].
  - intros k cs p [<-|[]] G. assert (E : given (toy_opts MSign) (Some [CHeader $"host"; CDerived (dc_new AT_METHOD)])) by (apply given_iff; vm_compute; reflexivity).
    pose proof (given_fun _ _ _ G E) as X. injection X as ->. intros [<-|[<-|[]]] (ps & Y); discriminate.
  - set (q := match from_reader false (w_url parsing_world) out with Done (Some q) => q | _ => bare_req end).
    exists out, q. split; [exists out; split; [reflexivity|]; apply read_accepts; vm_compute; reflexivity|]. split; vm_compute; reflexivity.
Qed.
