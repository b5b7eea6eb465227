(** Streams that fail.  Nothing here models code. *)
From Verif Require Export Io.

(** What a device that takes [room] bytes keeps of a text. *)
Definition kept (room : option nat) (s : str) : str := match room with None => s | Some n => firstn n s end.
(** And what it loses. *)
Definition lost (room : option nat) (s : str) : str := match room with None => [] | Some n => skipn n s end.
Definition fits (room : option nat) (s : str) : Prop := match room with None => True | Some n => (List.length s <= n)%nat end.
(** A device at the start of a process. *)
Definition fresh (room : option nat) : sink := Sink room [] [].
(** An input that can be read to its end. *)
Definition whole (s : str) : source := Source s false.
(** The beginning of an input, after which reading fails. *)
Definition broken (s : str) : source := Source s true.
