(** Small specifications for the astronomy helpers. *)
From Coq Require Import ZArith QArith.
From Verif Require Import S_Cal.
Open Scope Z_scope.

(** The value of an angle written with sign, whole units, minutes and seconds. *)
Definition sexagesimal (negative : bool) (d m : Z) (s : Q) : Q :=
  let v := (inject_Z d + inject_Z m * (1 # 60) + s * (1 # 3600))%Q in if negative then (- v)%Q else v.

(** The civil weekday (Sunday = 0): 1 January 2000 was a Saturday, and weekdays follow each other. *)
Definition is_weekday (w : Z -> Z -> Z -> Z) : Prop :=
  w 2000 1 1 = 6 /\
  (forall y m d, 0 <= w y m d < 7) /\
  forall y m d, valid_date y m d -> let '(y', m', d') := next_day y m d in w y' m' d' = (w y m d + 1) mod 7.
