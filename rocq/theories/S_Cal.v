(** The Gregorian calendar, day by day. *)
From Coq Require Import ZArith Bool.
Open Scope Z_scope.

Definition leap_year (y : Z) : bool := (y mod 4 =? 0) && (negb (y mod 100 =? 0) || (y mod 400 =? 0)).
Definition days_in (y m : Z) : Z :=
  if m =? 2 then (if leap_year y then 29 else 28)
  else if (m =? 4) || (m =? 6) || (m =? 9) || (m =? 11) then 30 else 31.
Definition valid_date (y m d : Z) : Prop := 1 <= m <= 12 /\ 1 <= d <= days_in y m.
(** The next calendar day. *)
Definition next_day (y m d : Z) : Z * Z * Z :=
  if d <? days_in y m then (y, m, d + 1)
  else if m <? 12 then (y, m + 1, 1) else (y + 1, 1, 1).

(** A UTC calendar time. *)
Record datetime := mkDT { dt_y : Z; dt_m : Z; dt_d : Z; dt_H : Z; dt_M : Z; dt_S : Z; dt_us : Z }.
Definition valid_dt (t : datetime) : Prop :=
  1 <= dt_y t <= 9999 /\ valid_date (dt_y t) (dt_m t) (dt_d t) /\
  0 <= dt_H t < 24 /\ 0 <= dt_M t < 60 /\ 0 <= dt_S t < 60 /\ 0 <= dt_us t < 1000000.
