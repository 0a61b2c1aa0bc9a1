(** Model of lsl/transform.py: the Time class (78-375).
    Simplification: an astropy time is its UTC modified Julian day as an exact rational number, also in the divisions by fS; the relation of UTC and TAI is a parameter. *)
From Coq Require Import List ZArith Bool QArith Qround.
From Verif Require Import M_Py M_Num.
Import ListNotations.
Open Scope Q_scope.

(** int() of a float: towards zero. *)
Definition trunc (q : Q) : Z := if Qle_bool 0 q then Qfloor q else (- Qfloor (- q))%Z.
(** fS (common/ndp.py 29). *)
Definition fS : Z := 196000000.
(** UTC and TAI modified Julian days. *)
Record scales := mkScales { to_tai : Q -> Q; of_tai : Q -> Q }.

(** The values the setters are given. *)
Inductive pyval := PInt (n : Z) | PFloat (q : Q) | PStr (instant : option Q) | PDate (instant : Q) | PSeq (l : list pyval) | PAstro (instant : Q) | POther.
Definition number (v : pyval) : option Q := match v with PInt n => Some (inject_Z n) | PFloat q => Some q | _ => None end.
Definition with_number (v : pyval) (f : Q -> Q) : res Q := match number v with Some q => Ok (f q) | None => Raise TypeError end.

(** The setters. utc_jd (201-207), utc_mjd (217-222), utc_timet (328-333). *)
Definition set_jd (v : pyval) : res Q := with_number v (fun q => q - (4800001 # 2)).
Definition set_mjd (v : pyval) : res Q := with_number v (fun q => q).
Definition of_unix (q : Q) : Q := 40587 + q / 86400.
Definition set_timet (v : pyval) : res Q := with_number v of_unix.
(** utc_dp (228-233): AstroTime(value // fS, value % fS, format='unix'), which is the sum of the two in seconds. *)
Definition set_dp (v : pyval) : res Q :=
  match v with PInt n => Ok (of_unix (inject_Z (n / fS) + inject_Z (n mod fS))) | _ => Raise TypeError end.
(** utc_mcs (241-253). *)
Definition set_mcs (v : pyval) : res Q :=
  match v with
  | PSeq [a; b] => match number a, number b with
                   | Some mjd, Some mpm => Ok (mjd + mpm / 86400 / 1000)
                   | _, _ => Raise TypeError
                   end
  | PSeq _ => Raise ValueError
  | _ => Raise TypeError
  end.
(** utc_py_date (268-273): a ValueError here; utc_str (283-288): the text is given by the time it stands for. *)
Definition set_py_date (v : pyval) : res Q := match v with PDate t => Ok t | _ => Raise ValueError end.
Definition set_str (v : pyval) : res Q := match v with PStr (Some t) => Ok t | PStr None => Raise ValueError | _ => Raise TypeError end.
(** tai_jd (298-303), tai_mjd (313-318), tai_timet (343-348). *)
Definition set_tai_jd (s : scales) (v : pyval) : res Q := with_number v (fun q => of_tai s (q - (4800001 # 2))).
Definition set_tai_mjd (s : scales) (v : pyval) : res Q := with_number v (fun q => of_tai s q).
Definition set_tai_timet (s : scales) (v : pyval) : res Q := with_number v (fun q => of_tai s (of_unix q)).
(** astropy (358-363). *)
Definition set_astropy (v : pyval) : res Q := match v with PAstro t => Ok t | _ => Raise TypeError end.

(** The getters utc_jd (193-199), utc_mjd (209-215), utc_timet (320-326), utc_dp (224-226); tai_jd (290-296) and the like below. *)
Definition utc_jd (t : Q) : Q := t + (4800001 # 2).
Definition utc_mjd (t : Q) : Q := t.
Definition utc_timet (t : Q) : Q := (t - 40587) * 86400.
Definition utc_dp (t : Q) : Z := trunc (utc_timet t * inject_Z fS).
(** utc_mcs (235-239). *)
Definition utc_mcs (t : Q) : Z * Z :=
  let mjd := trunc (utc_mjd t) in (mjd, py_round ((utc_mjd t - inject_Z mjd) * 86400 * 1000)).
Definition tai_jd (s : scales) (t : Q) : Q := to_tai s t + (4800001 # 2).
Definition tai_mjd (s : scales) (t : Q) : Q := to_tai s t.
Definition tai_timet (s : scales) (t : Q) : Q := (to_tai s t - 40587) * 86400.

(** The constructor (100-152). *)
Inductive format := F_PY_DATE | F_STR | F_JD | F_MJD | F_DP | F_MCS | F_TIMET | F_ASTROPY | F_unknown.
Inductive timesys := UTC | TAI | T_unknown.
Definition new_time (s : scales) (v : pyval) (f : format) (y : timesys) : res Q :=
  match f with
  | F_unknown => Raise ValueError
  | _ =>
    match y with
    | T_unknown => Raise ValueError
    | _ =>
      let utc := match y with UTC => true | _ => false end in
      match f with
      | F_PY_DATE => if utc then set_py_date v else Raise ValueError
      | F_STR => if utc then set_str v else Raise ValueError
      | F_JD => if utc then set_jd v else set_tai_jd s v
      | F_MJD => if utc then set_mjd v else set_tai_mjd s v
      | F_DP => if utc then set_dp v else Raise ValueError
      | F_MCS => if utc then set_mcs v else Raise ValueError
      | F_TIMET => if utc then set_timet v else set_tai_timet s v
      | _ => set_astropy v
      end
    end
  end.
(** __cmp__ (154-164), __eq__ and __lt__ (166-170), and __le__, __gt__, __ge__ of functools.total_ordering. *)
Definition cmp (a b : Q) : Z := if negb (Qle_bool b a) then (-1)%Z else if negb (Qle_bool a b) then 1%Z else 0%Z.
Definition t_eq (a b : Q) : bool := (cmp a b =? 0)%Z.
Definition t_lt (a b : Q) : bool := (cmp a b <? 0)%Z.
Definition t_le (a b : Q) : bool := t_lt a b || t_eq a b.
Definition t_gt (a b : Q) : bool := negb (t_lt a b) && negb (t_eq a b).
Definition t_ge (a b : Q) : bool := negb (t_lt a b).
