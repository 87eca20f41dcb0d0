(** What the C library's time zone must give, and the Gregorian calendar, day by day. *)
From Coq Require Import ZArith List Bool.
From Verif Require Import Dates.
Import ListNotations.
Open Scope Z_scope.

(** Every fourth year is a leap year, except every hundredth that is no four-hundredth. *)
Definition leap (y : Z) : bool := (y mod 4 =? 0) && (negb (y mod 100 =? 0) || (y mod 400 =? 0)).

Definition month_days (y m : Z) : Z :=
  if m =? 2 then (if leap y then 29 else 28)
  else if (m =? 4) || (m =? 6) || (m =? 9) || (m =? 11) then 30 else 31.

(** The day after. *)
Definition tomorrow (d : Z * Z * Z) : Z * Z * Z :=
  let '(y, m, day) := d in
  if day <? month_days y m then (y, m, day + 1)
  else if m <? 12 then (y, m + 1, 1)
  else (y + 1, 1, 1).

(** A calendar: 1 January 1970 is day 0 and each day is followed by the next. *)
Definition calendar (c : Z -> Z * Z * Z) : Prop :=
  c 0 = (1970, 1, 1) /\ forall n, c (n + 1) = tomorrow (c n).

(** The number a run of decimal digits stands for. *)
Fixpoint number (acc : Z) (s : list Z) : Z :=
  match s with [] => acc | c :: s' => number (acc * 10 + (c - 48)) s' end.

(** What is asked of [time.mktime]: for a time the local clock does show it gives an instant at
    which the clock shows it. Nothing is asked about times the clock jumps over, nor which of
    several instants is chosen. *)
Definition mktime_right (z : zone) : Prop :=
  forall t, let d := from_timestamp z t in from_timestamp z (to_timestamp z d) = d.

(** No other instant has the same local time. *)
Definition unambiguous (z : zone) (t : Z) : Prop :=
  forall u, from_timestamp z u = from_timestamp z t -> u = t.

(** A zone two hours ahead of universal time until instant 1000000000 and one hour ahead from
    then on; [mktime] takes the later instant of the two it may choose from. *)
Definition autumn : zone :=
  {| z_off := fun t => if t <? 1000000000 then 7200 else 3600;
     z_mk := fun d => if d - 3600 <? 1000000000 then d - 7200 else d - 3600 |}.
