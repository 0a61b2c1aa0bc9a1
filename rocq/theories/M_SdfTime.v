(** Model of the times and durations of an observation: Observation.start and Observation.duration (lsl/common/sdf.py
    593-637), the texts made by _parse_create_obs_object (sdf.py 2036-2055), parse_time (lsl/common/_sdf_utils.py
    87-279) and the conversions of mcs.py in double precision. *)
From Coq Require Import Ascii String.
From Coq Require Import List ZArith Bool QArith Qround.
From Verif Require Export M_Py M_Str M_Bar M_Num M_Sdf M_Flt M_Cal.
Import ListNotations.
Open Scope Z_scope.

(** float(s) in double precision (syntax: M_Sdf.parse_float). *)
Definition py_float (s : str) : option Q := option_map fl (parse_float s).
(** x // m and x % m of a float that is not negative and a whole number: C's fmod is exact. *)
Definition fmod (x : Q) (m : Z) : Q := (x - inject_Z (m * Qfloor (x / inject_Z m)))%Q.
(** '%06.3f' of a number that is not negative. *)
Definition fmt_06_3f (q : Q) : str := let s := ufix 3 q in rep 48 (6 - Z.of_nat (length s)) ++ s.

(** ** Durations *)
(** Observation.duration, the text (sdf.py 607-617). *)
Definition get_duration (dur : Z) : str :=
  let s := dur / 1000 in
  let ms := fl (inject_Z (dur mod 1000) / 1000)%Q in
  let h := s / 3600 in
  let m := (s / 60) mod 60 in
  let s := s mod 60 in
  dec h ++ 58 :: fmt_02i m ++ 58 :: fmt_06_3f (fl (inject_Z s + ms)%Q).
(** int(round(seconds*1000)) (637). *)
Definition to_ms (seconds : Q) : Z := py_round (fl (seconds * 1000)%Q).
(** Observation.duration, from a text (619-637). *)
Definition field (l : list str) (k : nat) : exn + Z :=
  match nth_error l k with
  | None => inr 0                                              (* IndexError: 0 *)
  | Some t => match parse_int t with Some n => inr n | None => inl ValueError end
  end.
Definition set_duration (v : str) : exn + Z :=
  let fields := rev (split 58 v) in
  match py_float (hd [] fields) with
  | None => inl ValueError
  | Some s =>
      match field fields 1 with
      | inl e => inl e
      | inr m =>
          match field fields 2 with
          | inl e => inl e
          | inr h =>
              let seconds := h * 3600 + m * 60 + py_int s in
              let ms := py_round (fl (fl (s - inject_Z (py_int s)) * 1000))%Q in
              let '(seconds, ms) := if 1000 <=? ms then (seconds + 1, ms - 1000) else (seconds, ms) in
              inr (to_ms (fl (fl (inject_Z seconds) + fl (inject_Z ms / 1000)))%Q)
          end
      end
  end.
(** From a timedelta (629-632) and from a number (637). *)
Definition set_duration_timedelta (days secs us : Z) : Z :=
  let seconds := days * 86400 + secs in
  let ms := fl (inject_Z (py_round (fl (inject_Z us / 1000)%Q)) / 1000)%Q in
  to_ms (fl (fl (inject_Z seconds) + ms)%Q).
Definition set_duration_number (x : Q) : Z := to_ms x.
(** From an astropy quantity (634-635): seconds is read before it is set. *)
Definition set_duration_quantity (seconds : Q) : exn + Z := inl NameError.
(** durString of parse_sdf (2048-2055), from the milliseconds of OBS_DUR. *)
Definition dur_string (dur : Z) : str :=
  let d := fl (fl (inject_Z dur) / 1000)%Q in
  fmt_02i (trunc (fl (d / 3600))) ++ 58 :: fmt_02i (trunc (fl (fmod d 3600 / 60))) ++ 58 :: fmt_06_3f (fmod d 60).

(** ** parse_time *)
(** One or two digits, as many as there are: \d{1,2}.  Whatever follows them in the pattern is not a digit, so taking
    fewer never helps. *)
Definition digits12 (s : str) : option (Z * str) :=
  match s with
  | a :: r => if is_digit a
              then match r with
                   | b :: r' => if is_digit b then Some (10 * (a - 48) + (b - 48), r') else Some (a - 48, r)
                   | [] => Some (a - 48, r)
                   end
              else None
  | [] => None
  end.
Definition digits4 (s : str) : option (Z * str) :=
  match s with
  | a :: b :: c :: d :: r => if is_digit a && is_digit b && is_digit c && is_digit d then Some (1000 * (a - 48) + 100 * (b - 48) + 10 * (c - 48) + (d - 48), r) else None
  | _ => None
  end.
(** [ -/]: every character from the blank to the slash. *)
Definition sep (s : str) : option str := match s with c :: r => if (32 <=? c) && (c <=? 47) then Some r else None | [] => None end.
Definition expect (cs : list Z) (s : str) : option str := match s with c :: r => if existsb (Z.eqb c) cs then Some r else None | [] => None end.
Definition upper (c : Z) : bool := (65 <=? c) && (c <=? 90).
Definition alpha (c : Z) : bool := upper c || ((97 <=? c) && (c <=? 122)).
Definition lower (c : Z) : Z := if upper c then c + 32 else c.
(** ((?P<tz>[A-Z]{2,3}) )? *)
Definition take_tz (s : str) : str * str :=
  match s with
  | a :: b :: c :: d :: r =>
      if upper a && upper b && upper c && (d =? 32) then ([a; b; c], r)
      else if upper a && upper b && (c =? 32) then ([a; b], d :: r) else ([], s)
  | [a; b; c] => if upper a && upper b && (c =? 32) then ([a; b], []) else ([], s)
  | _ => ([], s)
  end.
(** The month: a number or three letters. *)
Inductive month := MNum (m : Z) | MName (n : str).
Definition take_month (s : str) : option (month * str) :=
  match digits12 s with
  | Some (m, r) => Some (MNum m, r)
  | None => match s with a :: b :: c :: r => if alpha a && alpha b && alpha c then Some (MName (map lower [a; b; c]), r) else None | _ => None end
  end.
(** \d{1,2}(\.\d{1,6})?, as its text. *)
Fixpoint take_digits (n : nat) (s : str) : str * str :=
  match n, s with
  | S k, c :: r => if is_digit c then let '(d, t) := take_digits k r in (c :: d, t) else ([], s)
  | _, _ => ([], s)
  end.
Definition take_second (s : str) : option (str * str) :=
  match take_digits 2 s with
  | ([], _) => None
  | (d, c :: r) => if c =? 46 then match take_digits 6 r with ([], _) => Some (d, c :: r) | (f, t) => Some (d ++ 46 :: f, t) end else Some (d, c :: r)
  | (d, []) => Some (d, [])
  end.
(** [-+]\d{1,2}:?\d{1,2} as a whole text. *)
Definition offset_ok (s : str) : bool :=
  match s with
  | c :: r => existsb (Z.eqb c) [45; 43] &&
              existsb (fun k => let a := firstn k r in let b := skipn k r in
                                let b' := match b with x :: y => if x =? 58 then y else b | [] => b end in
                                (Z.of_nat (length a) =? Z.of_nat k) && forallb is_digit a && forallb is_digit b' && (1 <=? Z.of_nat (length b')) && (Z.of_nat (length b') <=? 2)) [1; 2]%nat
  | [] => false
  end.
(** _dtRE (_sdf_utils.py 88).  Simplifications: digits and letters of other scripts are not recognised; a line feed
    after the end, which '$' allows, is not. *)
Record match_ := mkMatch { m_tz : str; m_year : Z; m_month : month; m_day : Z; m_hour : Z; m_minute : Z; m_second : str; m_offset : str }.
Definition obind {A B} (x : option A) (f : A -> option B) : option B := match x with Some a => f a | None => None end.
Definition match_time (s : str) : option match_ :=
  let '(tz, s) := take_tz s in
  obind (digits4 s) (fun '(year, s) =>
  obind (sep s) (fun s =>
  obind (take_month s) (fun '(mo, s) =>
  obind (sep s) (fun s =>
  obind (digits12 s) (fun '(day, s) =>
  obind (expect [32; 84] s) (fun s =>
  obind (digits12 s) (fun '(hour, s) =>
  obind (expect [58] s) (fun s =>
  obind (digits12 s) (fun '(minute, s) =>
  obind (expect [58] s) (fun s =>
  obind (take_second s) (fun '(sec, s) =>
  let s := match s with c :: r => if c =? 32 then r else s | [] => s end in
  match s with
  | [] => Some (mkMatch tz year mo day hour minute sec [])
  | _ => if offset_ok s then Some (mkMatch tz year mo day hour minute sec s) else None
  end))))))))))).
Definition month_names : list str := map tx ["jan"; "feb"; "mar"; "apr"; "may"; "jun"; "jul"; "aug"; "sep"; "oct"; "nov"; "dec"]%string.
Fixpoint position (n : Z) (s : str) (l : list str) : option Z :=
  match l with [] => None | x :: r => if str_eqb s x then Some n else position (n + 1) s r end.
(** The offset in seconds (185-193): two characters for the hours, the next two for the minutes; timezone() takes
    less than a day. *)
Definition offset_seconds (s : str) : exn + Z :=
  let t := drop_char 58 s in
  match parse_int (firstn 2 (skipn 1 t)), parse_int (firstn 2 (skipn 3 t)) with
  | Some h, Some m => let o := (h * 3600 + m * 60) * (if nth 0 s 0 =? 45 then -1 else 1) in
                      if (-86400 <? o) && (o <? 86400) then inr o else inl ValueError
  | _, _ => inl ValueError
  end.
(** datetime(...): ValueError outside the ranges. *)
Definition make_dt (y mo d H M S us : Z) : exn + datetime :=
  if (1 <=? y) && (y <=? 9999) && (1 <=? mo) && (mo <=? 12) && (1 <=? d) && (d <=? days_in y mo) &&
     (0 <=? H) && (H <=? 23) && (0 <=? M) && (M <=? 59) && (0 <=? S) && (S <=? 59) && (0 <=? us) && (us <=? 999999)
  then inr (mkDT y mo d H M S us) else inl ValueError.
(** astimezone(utc) from a fixed offset: OverflowError outside the years 1 to 9999. *)
Definition shift_dt (t : datetime) (o : Z) : exn + datetime :=
  let days := date_to_mjd (dt_y t) (dt_m t) (dt_d t) + 678576 in
  let s := days * 86400 + dt_H t * 3600 + dt_M t * 60 + dt_S t - o in
  let '(y, m, d) := ord2ymd (s / 86400) in
  let sec := s mod 86400 in
  if (1 <=? y) && (y <=? 9999) then inr (mkDT y m d (sec / 3600) (sec / 60 mod 60) (sec mod 60) (dt_us t)) else inl OverflowError.
Section Zones.
  (** Named zones other than UT and UTC (198-227, and LST 229-272): not modelled. *)
  Variable named : str -> datetime -> exn + datetime.
  (** parse_time of a text (129-279). *)
  Definition parse_time (s : str) : exn + datetime :=
    match match_time s with
    | None => inl ValueError
    | Some x =>
        match py_float (m_second x) with
        | None => inl ValueError
        | Some sec =>
            let second := Qfloor sec in
            let microsecond := py_round (fl (fl (sec - inject_Z second) * 1000))%Q * 1000 in
            match (match m_month x with MNum n => Some n | MName n => position 1 n month_names end) with
            | None => inl ValueError
            | Some month =>
                let local := make_dt (m_year x) month (m_day x) (m_hour x) (m_minute x) second microsecond in
                match m_offset x with
                | _ :: _ =>
                    match offset_seconds (m_offset x) with
                    | inl e => inl e
                    | inr o => match local with inl e => inl e | inr t => shift_dt t o end
                    end
                | [] =>
                    if existsb (str_eqb (m_tz x)) [[]; tx "UT"; tx "UTC"] then local
                    else match local with inl e => inl e | inr t => named (m_tz x) t end
                end
            end
        end
    end.
  (** parse_time of a datetime in UTC (120-127). *)
  Definition parse_time_datetime (t : datetime) : exn + datetime :=
    make_dt (dt_y t) (dt_m t) (dt_d t) (dt_H t) (dt_M t) (dt_S t) (py_round (fl (inject_Z (dt_us t) / 1000)%Q) * 1000).

  (** ** Start times *)
  (** mjdmpm_to_datetime (mcs.py 587-588) in double precision, for whole numbers. *)
  Definition mjdmpm_to_datetime_fl (mjd mpm : Z) : res datetime :=
    fromtimestamp (fl (fl (fl (inject_Z mjd * 86400) + fl (inject_Z mpm / 1000)) - 3506716800))%Q.
  (** strftime('UTC %Y/%m/%d %H:%M:%S.%f').  Simplification: four digits for the year (CPython writes fewer before
      1000 on some systems). *)
  Definition stamp (sepr : Z) (t : datetime) : str :=
    tx "UTC " ++ zpad 4 (dt_y t) ++ sepr :: zpad 2 (dt_m t) ++ sepr :: zpad 2 (dt_d t) ++ 32 :: zpad 2 (dt_H t) ++ 58 :: zpad 2 (dt_M t) ++ 58 :: zpad 2 (dt_S t) ++ 46 :: zpad 6 (dt_us t).
  (** Observation.start (sdf.py 594-604). *)
  Definition get_start (mjd mpm : Z) : exn + str :=
    match mjdmpm_to_datetime_fl mjd mpm with Ok t => inr (stamp 47 t) | Raise e => inl e end.
  Definition set_start (v : str) : exn + (Z * Z) :=
    match parse_time v with inl e => inl e | inr t => inr (datetime_to_mjdmpm t) end.

  (** The start time in parse_sdf (2042-2046).  The day number with its fraction is a float; [leap] tells
      the days of 86401 seconds (the fraction of a day with a leap second counts parts of the
      longer day, as in ERFA, which astropy uses), [e] the relative error of the conversion to microseconds. *)
  Definition mjd_float (mjd mpm : Z) : Q := fl (inject_Z mjd + fl (fl (fl (inject_Z mpm / 1000) / 3600) / 24))%Q.
  Definition astro_datetime (leap : Z -> bool) (e : Q) (x : Q) : exn + datetime :=
    let day := Qfloor x in
    let secs := if leap day then 86401 else 86400 in
    let us := py_round ((x - inject_Z day) * inject_Z (secs * 1000000) * (1 + e))%Q in
    let '(day, us) := if us <? secs * 1000000 then (day, us) else (day + 1, us - secs * 1000000) in
    let '(y, m, d) := ord2ymd (day + 678576) in
    let s := us / 1000000 in
    (* datetime refuses second 60 *)
    if s <? 86400 then inr (mkDT y m d (s / 3600) (s / 60 mod 60) (s mod 60) (us mod 1000000)) else inl ValueError.
  (** start += timedelta(...): to the nearest millisecond. *)
  Definition add_us (t : datetime) (k : Z) : exn + datetime :=
    let days := date_to_mjd (dt_y t) (dt_m t) (dt_d t) + 678576 in
    let us := (days * 86400 + dt_H t * 3600 + dt_M t * 60 + dt_S t) * 1000000 + dt_us t + k in
    let s := us / 1000000 in
    let '(y, m, d) := ord2ymd (s / 86400) in
    let sec := s mod 86400 in
    if (1 <=? y) && (y <=? 9999) then inr (mkDT y m d (sec / 3600) (sec / 60 mod 60) (sec mod 60) (us mod 1000000)) else inl OverflowError.
  Definition utc_string (leap : Z -> bool) (e : Q) (mjd mpm : Z) : exn + str :=
    match astro_datetime leap e (mjd_float mjd mpm) with
    | inl x => inl x
    | inr t =>
        match add_us t (py_round (fl (inject_Z (dt_us t) / 1000)%Q) * 1000 - dt_us t) with
        | inl x => inl x
        | inr t => let s := stamp 32 t in inr (firstn (length s - 3) s)
        end
    end.
End Zones.
(** What observations are sorted by (sdf.py 799-812). *)
Definition start_key (mjd mpm : Z) : Q := fl (inject_Z mjd + fl (inject_Z mpm / 86400000))%Q.
