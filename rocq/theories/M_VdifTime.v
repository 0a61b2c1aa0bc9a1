(** Model of the time of VDIF frames: reader FrameHeader.time (lsl/reader/vdif.py 55-62, 124-173)
    and writer Frame._set_epoch (lsl/writer/vdif.py 74-97), over exact rationals and the UTC
    model of M_Time (with the table of leap seconds as a parameter). *)
From Coq Require Import ZArith QArith Qround Bool.
From Verif Require Export M_Time M_Cal.
Open Scope Z_scope.

(** Day (since 1970) of the reference epoch (vdif.py 131-133).  astropy's parsing of the
    calendar date is taken to agree with datetime_to_mjdmpm. *)
Definition epoch_day (e : Z) : Z := date_to_mjd (2000 + e / 2) ((e mod 2) * 6 + 1) 1 - 40587.

Section Utc.
Context (acc : Z -> Z).
(** leap_secs(JD) (astro.py 2945-2961) at an integer JD, i.e. noon of day [d], up to a constant *)
Definition leap_secs (d : Z) : Q := (inject_Z (acc d) + inject_Z (leap acc d) * (1 # 2))%Q.
(** int(t.jd), as the day whose noon it is *)
Definition jd_int (u : Q) : Z := Qfloor (u / 86400 - (1 # 2))%Q.

(** FrameHeader.time: [u] is the UTC time returned for reference epoch [e], seconds [s]
    and offset [off] in the second.  Conversion back from TAI is given as a relation: [v], [u] are
    the UTC times whose TAI values are as computed. *)
Definition vdif_time (e s : Z) (off : Q) (u : Q) : Prop :=
  exists v, (tai acc v == tai acc (inject_Z (86400 * epoch_day e)) + inject_Z s)%Q /\
    (tai acc u == tai acc v - (leap_secs (epoch_day e - 1) - leap_secs (jd_int v)) + off)%Q.

(** _set_epoch (writer/vdif.py 74-97): epoch, seconds and frame number for UTC time [u];
    [rate] is sample_rate/(samples per frame) *)
Definition set_epoch (u rate : Q) : Z * Z * Z :=
  let '(y, m, _) := ord2ymd (day_of u + 719163) in
  let epoch := 2 * (y - 2000) + (if 6 <? m then 1 else 0) in
  let day0 := date_to_mjd y ((m / 7) * 6 + 1) 1 - 40587 in
  let es := (tai acc u - tai acc (inject_Z (86400 * day0)))%Q in
  let seconds := py_int es in
  (epoch, seconds, py_round ((es - inject_Z seconds) * rate)%Q).
End Utc.

(** Time samples per frame and frame rate (vdif.py 162-170); sample_rate nonzero.
    [Raise ZeroDivisionError] for the three possible zero divisors. *)
Definition vdif_samples (frame_length legacy bits nchan : Z) (cplx : bool) : res Z :=
  if (bits =? 0) || (nchan =? 0) then Raise ZeroDivisionError
  else Ok ((frame_length * 8 - 32 + 16 * legacy) / 4 * (32 / bits) / nchan / (if cplx then 2 else 1)).
Definition vdif_offset (sample_rate : Q) (n frame : Z) : res Q :=
  if n =? 0 then Raise ZeroDivisionError
  else let r := Qfloor (sample_rate / inject_Z n) in
       if r =? 0 then Raise ZeroDivisionError else Ok (inject_Z frame / inject_Z r)%Q.
