(** What the texts of times and durations mean. *)
From Coq Require Import Ascii String.
From Coq Require Import List ZArith Bool QArith.
From Verif Require Import M_Str M_Sdf S_Cal.
Import ListNotations.
Open Scope Z_scope.

(** ** Numbers *)
(** The last n decimal digits of a number, the value of the digits after a point, and that of the ones before. *)
Fixpoint pad (n : nat) (v : Z) : str := match n with O => [] | S k => pad k (v / 10) ++ [48 + v mod 10] end.
Fixpoint fraction (f : str) : Q := match f with [] => 0%Q | c :: r => ((inject_Z (c - 48) + fraction r) / 10)%Q end.
Definition whole (s : str) : Z := fold_left (fun a c => 10 * a + (c - 48)) s 0.
Definition all_digits (f : str) : Prop := Forall (fun c => 48 <= c <= 57) f.
(** A number below 100 in two digits, or one. *)
Definition num (v : Z) (s : str) : Prop := 0 <= v < 100 /\ s = pad 2 v \/ 0 <= v < 10 /\ s = [48 + v].

(** ** The time scale *)
(** Days since 1858 November 17, in the Gregorian calendar. *)
Definition day_number (y m d : Z) : Z :=
  365 * (y - 1) + (y - 1) / 4 - (y - 1) / 100 + (y - 1) / 400 + fold_right Z.add 0 (map (fun k => days_in y (Z.of_nat k)) (seq 1 (Z.to_nat (m - 1)))) + d - 678576.
(** Seconds of the day; microseconds since that day, every day having 86400 seconds. *)
Definition second_of_day (t : datetime) : Z := dt_H t * 3600 + dt_M t * 60 + dt_S t.
Definition instant (t : datetime) : Z := (day_number (dt_y t) (dt_m t) (dt_d t) * 86400 + second_of_day t) * 1000000 + dt_us t.
Definition with_us (t : datetime) (us : Z) : datetime := mkDT (dt_y t) (dt_m t) (dt_d t) (dt_H t) (dt_M t) (dt_S t) us.

(** ** Written times *)
Definition letters : list str := map tx ["jan"; "feb"; "mar"; "apr"; "may"; "jun"; "jul"; "aug"; "sep"; "oct"; "nov"; "dec"]%string.
(** A month: its number or its first three letters, large or small. *)
Definition same_letter (a b : Z) : Prop := 97 <= b <= 122 /\ (a = b \/ a = b - 32).
Definition month_text (m : Z) (s : str) : Prop := num m s \/ Forall2 same_letter s (nth (Z.to_nat (m - 1)) letters []).
(** [UT[C] ]year-month-day hour:minute:second[.fraction] *)
Definition time_text (t : datetime) (f s : str) : Prop :=
  exists tz p q mo dd hh mm ss b,
    In tz [[]; tx "UT "; tx "UTC "] /\ 32 <= p <= 47 /\ 32 <= q <= 47 /\ (b = 32 \/ b = 84) /\
    month_text (dt_m t) mo /\ num (dt_d t) dd /\ num (dt_H t) hh /\ num (dt_M t) mm /\ num (dt_S t) ss /\ all_digits f /\ (length f <= 6)%nat /\
    s = tz ++ pad 4 (dt_y t) ++ [p] ++ mo ++ [q] ++ dd ++ [b] ++ hh ++ [58] ++ mm ++ [58] ++ ss ++ match f with [] => [] | _ => 46 :: f end.
(** [ ]+HH:MM or [ ]+HHMM, or with a minus: seconds east of Greenwich. *)
Definition offset_text (o : Z) (s : str) : Prop :=
  exists (h m : Z) (blank colon : bool), 0 <= h < 24 /\ 0 <= m < 60 /\
    (s = (if blank then [32] else []) ++ [43] ++ pad 2 h ++ (if colon then [58] else []) ++ pad 2 m /\ o = 3600 * h + 60 * m \/
     s = (if blank then [32] else []) ++ [45] ++ pad 2 h ++ (if colon then [58] else []) ++ pad 2 m /\ o = - (3600 * h + 60 * m)).
(** ** Written durations *)
(** [[hours:]minutes:]seconds[.fraction], and how many seconds that is. *)
Definition hms_text (s : str) (total : Q) : Prop :=
  exists hh mm ss f, all_digits hh /\ all_digits mm /\ all_digits ss /\ all_digits f /\ ss <> [] /\
    (s = hh ++ [58] ++ mm ++ [58] ++ ss ++ (match f with [] => [] | _ => 46 :: f end) /\ hh <> [] /\ mm <> [] \/
     s = mm ++ [58] ++ ss ++ (match f with [] => [] | _ => 46 :: f end) /\ hh = [] /\ mm <> [] \/
     s = ss ++ (match f with [] => [] | _ => 46 :: f end) /\ hh = [] /\ mm = []) /\
    (total == inject_Z (3600 * whole hh + 60 * whole mm + whole ss) + fraction f)%Q.
