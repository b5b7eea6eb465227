(** The HTTP date format: chrono's [Utc::now().format(DATE_FORMAT)] with
    [DATE_FORMAT = "%a, %d %b %Y %T GMT"] (src/lib.rs:10, src/signing.rs:382).  The
    dependency is modelled from the proleptic Gregorian calendar (days to civil date
    by 400-year eras). *)
From Verif Require Export Str.
Local Open Scope Z_scope.

(** Clock readings are nanoseconds since 1970-01-01T00:00:00Z. *)
Definition ns_per_sec : Z := 1000000000.

(** Civil date (year, month 1..12, day 1..31) of a day number (0 = 1970-01-01). *)
Definition civil_of_days (day : Z) : Z * Z * Z :=
  let z := day + 719468 in                                   (* days since 0000-03-01 *)
  let era := z / 146097 in
  let doe := z mod 146097 in
  let yoe := (doe - doe / 1460 + doe / 36524 - doe / 146096) / 365 in
  let doy := doe - (365 * yoe + yoe / 4 - yoe / 100) in
  let mp := (5 * doy + 2) / 153 in
  let d := doy - (153 * mp + 2) / 5 + 1 in
  let m := if mp <? 10 then mp + 3 else mp - 9 in
  (yoe + era * 400 + (if m <=? 2 then 1 else 0), m, d).

(** 0 = Sunday. *)
Definition weekday (day : Z) : Z := (day + 4) mod 7.

(** "%a" and "%b". *)
Definition day_name (w : Z) : str :=
  nth (Z.to_nat w) [$"Sun"; $"Mon"; $"Tue"; $"Wed"; $"Thu"; $"Fri"; $"Sat"] [].
Definition month_name (m : Z) : str :=
  nth (Z.to_nat (m - 1))
    [$"Jan"; $"Feb"; $"Mar"; $"Apr"; $"May"; $"Jun"; $"Jul"; $"Aug"; $"Sep"; $"Oct"; $"Nov"; $"Dec"] [].

(** Zero-padded to [n] digits. *)
Definition zpad (n : nat) (z : Z) : str :=
  let s := dec_of_N (Z.to_N z) in List.repeat "0"%char (n - List.length s) ++ s.

(** "%Y": four digits, with an explicit sign outside 0..9999. *)
Definition fmt_year (y : Z) : str :=
  if (0 <=? y) && (y <=? 9999) then zpad 4 y
  else if y <? 0 then "-"%char :: zpad 4 (- y) else "+"%char :: zpad 4 y.

(** "%a, %d %b %Y %T GMT" of a number of seconds since the epoch. *)
Definition fmt_http_date (secs : Z) : str :=
  let day := secs / 86400 in
  let tod := secs mod 86400 in
  let '(y, m, d) := civil_of_days day in
  day_name (weekday day) ++ $", " ++ zpad 2 d ++ $" " ++ month_name m ++ $" " ++ fmt_year y
  ++ $" " ++ zpad 2 (tod / 3600) ++ $":" ++ zpad 2 (tod / 60 mod 60) ++ $":" ++ zpad 2 (tod mod 60)
  ++ $" GMT".

(** chrono's range of [NaiveDateTime] (years -262143 to 262142, chrono >= 0.4.32):
    [NaiveDateTime::from_timestamp_opt(secs, 0)] is [Some] exactly here
    (src/verifying.rs:526). *)
Definition chrono_min : Z := -8334601228800.
Definition chrono_max : Z := 8210266876799.
Definition chrono_range (secs : Z) : bool := (chrono_min <=? secs) && (secs <=? chrono_max).

(** [Utc::now()] for the clock reading [ns]: panics before the epoch ("system time
    before Unix epoch") and past chrono's range. *)
Definition utc_now (ns : Z) : outcome Z :=
  if (0 <=? ns) && chrono_range (ns / ns_per_sec) then Done ns else Panic.

(** [unix_timestamp] (src/signing.rs:425-430, src/verifying.rs:377-382): panics
    before the epoch; seconds, [as i64]. *)
Definition unix_timestamp (ns : Z) : outcome Z :=
  if 0 <=? ns then Done (as_i64 (ns / ns_per_sec)) else Panic.
