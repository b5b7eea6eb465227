(** Requests made with MockRequest::new, with_header and with_body.  Nothing here models code. *)
From Verif Require Export SpecUrl.

(** Calls of with_header and with_body, one after the other, none of which panics. *)
Inductive call := WithHeader (n v : str) | WithBody (b : str).
Inductive built : mock -> list call -> mock -> Prop :=
| built_nil r : built r [] r
| built_header r n v r1 cs r' : mr_with_header r n v = Done r1 -> built r1 cs r' -> built r (WithHeader n v :: cs) r'
| built_body r b r1 cs r' : mr_with_body r b = Done r1 -> built r1 cs r' -> built r (WithBody b :: cs) r'.
(** The headers they write: a body brings its length. *)
Inductive writes : list call -> list (str * str) -> Prop :=
| writes_nil : writes [] []
| writes_header n v cs ws : writes cs ws -> writes (WithHeader n v :: cs) ((n, v) :: ws)
| writes_body b l cs ws : digits l (N.of_nat (List.length b)) -> writes cs ws -> writes (WithBody b :: cs) (($"Content-Length", l) :: ws).
(** The last body given, if any. *)
Definition no_body (cs : list call) : Prop := forall b, ~ In (WithBody b) cs.
Inductive final_body (start : option str) (cs : list call) : option str -> Prop :=
| final_given before b after : cs = before ++ WithBody b :: after -> no_body after -> final_body start cs (Some b)
| final_start : no_body cs -> final_body start cs start.
(** Setting one header. *)
Definition set_one (hs : header_map) (k v : str) (hs' : header_map) : Prop :=
  hm_get_all hs' k = [v] /\ forall n, n <> k -> hm_get_all hs' n = hm_get_all hs n.
(** The values are plain text. *)
Definition plain_call (c : call) : Prop := match c with WithHeader _ v => plain_value v | WithBody _ => True end.
