(** The calendar, by counting days.  Nothing here models code. *)
From Verif Require Export Str.
Local Open Scope Z_scope.

Definition leap (y : Z) : bool := (y mod 4 =? 0) && (negb (y mod 100 =? 0) || (y mod 400 =? 0)).
Definition month_length (y m : Z) : Z :=
  if m =? 2 then if leap y then 29 else 28
  else if (m =? 4) || (m =? 6) || (m =? 9) || (m =? 11) then 30 else 31.
(** The day after (year, month, day). *)
Definition next_day (t : Z * Z * Z) : Z * Z * Z :=
  let '(y, m, d) := t in
  if d <? month_length y m then (y, m, d + 1)
  else if m <? 12 then (y, m + 1, 1) else (y + 1, 1, 1).
(** The date [n] days after Thursday, 1970-01-01. *)
Fixpoint date_after (n : nat) : Z * Z * Z :=
  match n with O => (1970, 1, 1) | S k => next_day (date_after k) end.
Definition weekdays : list str := [$"Thu"; $"Fri"; $"Sat"; $"Sun"; $"Mon"; $"Tue"; $"Wed"].
Definition weekday_after (n : nat) : str := nth (n mod 7) weekdays [].
Definition months : list str :=
  [$"Jan"; $"Feb"; $"Mar"; $"Apr"; $"May"; $"Jun"; $"Jul"; $"Aug"; $"Sep"; $"Oct"; $"Nov"; $"Dec"].

(** One decimal digit, two, four. *)
Definition digit1 (z : Z) : ascii := ascii_of_N (48 + Z.to_N z)%N.
Definition two (z : Z) : str := [digit1 (z / 10); digit1 (z mod 10)].
Definition four (z : Z) : str := two (z / 100) ++ two (z mod 100).

(** [http_date secs t]: [t] is the HTTP date (RFC 7231, IMF-fixdate) of the moment
    [secs] seconds after the epoch. *)
Definition http_date (secs : Z) (t : str) : Prop :=
  exists (n : nat) y m d hh mm ss,
    secs = Z.of_nat n * 86400 + hh * 3600 + mm * 60 + ss
    /\ 0 <= hh < 24 /\ 0 <= mm < 60 /\ 0 <= ss < 60
    /\ date_after n = (y, m, d) /\ 0 <= y <= 9999
    /\ t = weekday_after n ++ $", " ++ two d ++ $" " ++ nth (Z.to_nat (m - 1)) months [] ++ $" " ++ four y
           ++ $" " ++ two hh ++ $":" ++ two mm ++ $":" ++ two ss ++ $" GMT".
