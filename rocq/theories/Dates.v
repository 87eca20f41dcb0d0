(** Model of the dates of src/avb/ioctx.py: time stamps, local times and the text of the header.
    A [datetime] without zone is a reading of the local clock; here it is the number of seconds
    from 1970-01-01 00:00:00 to it on that clock (microseconds are dropped by [timetuple] and by
    the formats used, so they are not in the model). *)
From Coq Require Import ZArith List Bool.
From Verif Require Import Base IoCtx Text.
Import ListNotations.
Open Scope Z_scope.

(** The time zone of the process: what the local clock shows at an instant, less the instant, and
    the choice [time.mktime] makes for a local time. These two are the C library's (ioctx.py:93-95
    and 287-291). *)
Record zone := { z_off : Z -> Z; z_mk : Z -> Z }.

(** [datetime.fromtimestamp(t)] (ioctx.py:288). *)
Definition from_timestamp (z : zone) (t : Z) : Z := t + z_off z t.

(** ioctx.py:94-95 [datetime_to_timestamp]: [time.mktime(d.timetuple())]. The tuple has the
    local time only ([tm_isdst] is -1, [fold] is not passed on). *)
Definition to_timestamp (z : zone) (d : Z) : Z := z_mk z d.

(** ioctx.py:287-288 [read_datetime]. *)
Definition rdatetime (z : zone) (bo : border) : reader Z :=
  t <- ru32 bo ;; ret (from_timestamp z t).

(** ioctx.py:290-291 [write_datetime]. *)
Definition wdatetime (z : zone) (bo : border) (d : Z) : writer :=
  wu32 bo (to_timestamp z d).

(** ** The calendar: what [strftime] needs of a [datetime]. *)

(** Year, month and day of a day number (days from 1970-01-01, proleptic Gregorian calendar, as
    [datetime]). CPython's own algorithm is not part of the repository; this is the usual one
    with years starting in March. *)
Definition civil (days : Z) : Z * Z * Z :=
  let z := days + 719468 in
  let era := z / 146097 in
  let doe := z mod 146097 in
  let yoe := (doe - doe / 1460 + doe / 36524 - doe / 146096) / 365 in
  let doy := doe - (365 * yoe + yoe / 4 - yoe / 100) in
  let mp := (5 * doy + 2) / 153 in
  let d := doy - (153 * mp + 2) / 5 + 1 in
  let m := if mp <? 10 then mp + 3 else mp - 9 in
  (yoe + era * 400 + (if m <=? 2 then 1 else 0), m, d).

(** Decimal digits, zero padded to [n] places (for file.py:211). *)
Fixpoint digits (n : nat) (v : Z) : str :=
  match n with O => [] | S n' => digits n' (v / 10) ++ [48 + v mod 10] end.

(** file.py:211 [strftime(u'%Y/%m/%d %H:%M:%S')], for the years 1000 to 9999 (glibc does not pad
    shorter years). *)
Definition save_text (d : Z) : str :=
  let '(y, m, day) := civil (d / 86400) in
  let s := d mod 86400 in
  digits 4 y ++ [47] ++ digits 2 m ++ [47] ++ digits 2 day ++ [32] ++
  digits 2 (s / 3600) ++ [58] ++ digits 2 (s / 60 mod 60) ++ [58] ++ digits 2 (s mod 60).
