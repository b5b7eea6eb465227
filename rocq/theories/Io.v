(** The validator on standard streams that fail. *)
From Verif Require Export Validator.

(** * Reading *)
(** An input: the bytes that can be read, and whether reading then fails (or the input ends).
    ([Interrupted] errors are retried by the standard library and do not count.) *)
Record source := Source { so_text : str; so_fails : bool }.
Definition ends_line (l : str) : bool := match rev l with c :: _ => Ascii.eqb c ch_lf | [] => false end.
(** [BufRead::read_line]: a failure before the end of the line is returned. *)
Definition read_line_io (s : source) : option (str * source) :=
  let '(l, r) := take_line (so_text s) in
  if so_fails s && negb (ends_line l) then None
  else if utf8_valid l then Some (l, Source r (so_fails s)) else None.
(** httpsig-validator/src/mock_request.rs:138-154 (fuel as in Mock.v). *)
Fixpoint read_headers_io (fuel : nat) (s : source) (hs : header_map) : option (header_map * bool * source) :=
  match fuel with
  | O => None
  | S f =>
      match read_line_io s with
      | None => None
      | Some ([], _) => Some (hs, false, s)
      | Some (line, rest) =>
          match trim line with
          | [] => Some (hs, true, rest)
          | _ =>
              match split_once ":" line with
              | None => None
              | Some (n, v) =>
                  match hname_parse (trim n), hvalue_parse (trim v) with
                  | Some n', Some v' => read_headers_io f rest (hm_insert hs n' v')
                  | _, _ => None
                  end
              end
          end
      end
  end.
(** httpsig-validator/src/mock_request.rs:117-181; [read_to_end] (line 158) returns a failure. *)
Definition from_reader_io (trace : bool) (up : url_parser) (s : source) : outcome (option mock) :=
  match read_line_io s with
  | None => Done None
  | Some (line, rest) =>
      match split_ascii_whitespace line with
      | m :: path :: v :: _ =>
          match method_parse m, version_parse v with
          | Some method, Some ver =>
              match read_headers_io (Datatypes.S (List.length (so_text rest))) rest [] with
              | None => Done None
              | Some (hs, has_body, rest') =>
                  if has_body && so_fails rest' then Done None else
                  if trace && has_body && negb (utf8_valid (so_text rest')) then Panic else
                  do ou <- derive_url up path hs;
                  Done (match ou with
                        | Some u => Some (MockReq ver method u path hs (if has_body then Some (so_text rest') else None))
                        | None => None
                        end)
              end
          | _, _ => Done None
          end
      | _ => Done None
      end
  end.

(** * Writing *)
(** Standard output: how many more bytes the device takes ([None]: any number; once it has
    failed it goes on failing), the bytes it has taken, and the buffer of [Stdout], a
    [LineWriter] of the standard library with 1024 bytes. *)
Record sink := Sink { sk_room : option nat; sk_dev : str; sk_buf : str }.
Definition line_capacity : nat := N.to_nat 1024.
(** [write_all] on the device: what fits is written. *)
Definition dev_all (k : sink) (s : str) : sink * bool :=
  match sk_room k with
  | None => (Sink None (sk_dev k ++ s) (sk_buf k), true)
  | Some n =>
      if (List.length s <=? n)%nat then (Sink (Some (n - List.length s)%nat) (sk_dev k ++ s) (sk_buf k), true)
      else (Sink (Some O) (sk_dev k ++ firstn n s) (sk_buf k), false)
  end.
(** [BufWriter::flush_buf]: what could not be written stays in the buffer. *)
Definition flush_buf (k : sink) : sink * bool :=
  let '(k', ok) := dev_all k (sk_buf k) in
  (Sink (sk_room k') (sk_dev k') (if ok then [] else skipn (List.length (sk_dev k') - List.length (sk_dev k)) (sk_buf k)), ok).
Definition push_buf (k : sink) (s : str) : sink * bool := (Sink (sk_room k) (sk_dev k) (sk_buf k ++ s), true).
(** [BufWriter::write_all]. *)
Definition buf_all (k : sink) (s : str) : sink * bool :=
  let spare := (line_capacity - List.length (sk_buf k))%nat in
  if (List.length s <? spare)%nat then push_buf k s
  else
    let '(k, ok) := if (spare <? List.length s)%nat then flush_buf k else (k, true) in
    if negb ok then (k, false)
    else if (line_capacity <=? List.length s)%nat then dev_all k s
    else push_buf k s.
(** The text up to the last LF, and after it. *)
Fixpoint last_lf (s : str) : option (str * str) :=
  match s with
  | [] => None
  | c :: s' =>
      match last_lf s' with
      | Some (a, b) => Some (c :: a, b)
      | None => if Ascii.eqb c ch_lf then Some ([c], s') else None
      end
  end.
(** [LineWriter::write_all]. *)
Definition line_all (k : sink) (s : str) : sink * bool :=
  match last_lf s with
  | None =>
      let '(k, ok) := if ends_line (sk_buf k) then flush_buf k else (k, true) in
      if ok then buf_all k s else (k, false)
  | Some (lines, tail) =>
      let '(k, ok) :=
        match sk_buf k with
        | [] => dev_all k lines
        | _ => let '(k, ok) := buf_all k lines in if ok then flush_buf k else (k, false)
        end in
      if ok then buf_all k tail else (k, false)
  end.
(** [write_fmt]: one [write_all] for each piece of the text. *)
Fixpoint pieces_all (k : sink) (ps : list str) : sink * bool :=
  match ps with
  | [] => (k, true)
  | p :: ps' => let '(k, ok) := line_all k p in if ok then pieces_all k ps' else (k, false)
  end.
(** httpsig-validator/src/mock_request.rs:221-228. *)
Fixpoint write_headers_io (k : sink) (hs : header_map) : sink * bool :=
  match hs with
  | [] => (k, true)
  | (n, v) :: hs' =>
      match hvalue_to_str v with
      | Some t => let '(k, ok) := pieces_all k [n; $": "; t; [ch_lf]] in if ok then write_headers_io k hs' else (k, false)
      | None => (k, false)
      end
  end.
(** httpsig-validator/src/mock_request.rs:219-236 [write]. *)
Definition write_io (k : sink) (r : mock) : sink * bool :=
  let '(k, ok) := pieces_all k [mr_method r; $" "; mr_path r; $" HTTP/1.1" ++ [ch_lf]] in
  if negb ok then (k, false) else
  let '(k, ok) := write_headers_io k (mr_headers r) in
  if negb ok then (k, false) else
  match mr_body r with
  | Some b => pieces_all k [[ch_lf]; b]
  | None => (k, true)
  end.
(** The end of the process: what is still buffered is written, and a failure to do so ignored. *)
Definition at_exit (k : sink) : sink := fst (flush_buf k).

(** httpsig-validator/src/main.rs:310-342 [main]: the error it ends with, if any, and standard
    output after the process has ended.  [files] are the contents of request files; key files
    are read as in Validator.v. *)
Definition main_io (w : world) (files : str -> option source) (o : opt) (stdin : source) (k : sink) (se : sign_env) (ve : verify_env)
  : outcome (option verror) * sink :=
  let ended (x : outcome (option verror * sink)) := match x with Done (e, k') => (Done e, at_exit k') | Panic => (Panic, at_exit k) end in
  ended (
  do input <- match op_in_file o with
              | Some f => unwrap (files f)
              | None => Done stdin
              end;
  do or <- from_reader_io (w_trace w) (w_url w) input;
  do req <- unwrap or;
  match op_mode o with
  | MCanonicalize =>
      match canonicalize_config o with
      | Err e => Done (Some e, k)
      | Ok cc =>
          do res <- canonicalize mr_rl req cc;
          Done (match res with
                | Ok (base, _) => let '(k, ok) := line_all k base in (if ok then None else Some VIo, k)
                | Err _ => (Some VSig, k)
                end)
      end
  | MSign =>
      match signing_config_of w o with
      | Err e => Done (Some e, k)
      | Ok c =>
          do (req', res) <- sign mr_client req c se;
          Done (match res with
                | Err _ => (Some VSig, k)
                | Ok _ => let '(k, ok) := write_io k req' in (if ok then None else Some VIo, k)
                end)
      end
  | MVerify =>
      match verification_config_of w o with
      | Err e => Done (Some e, k)
      | Ok c =>
          do res <- verify mr_server req c ve;
          Done (match res with Ok _ => (None, k) | Err _ => (Some VSig, k) end)
      end
  end).
