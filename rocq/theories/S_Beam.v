(** What a phased beam is, independent of the model. *)
From Coq Require Import List ZArith QArith Qcanon Bool.
From Verif Require Import LibList M_Beam S_Corr.
Import ListNotations.
Open Scope Z_scope.

(** Positions in space. *)
Definition point : Type := (Qc * Qc * Qc)%type.
Definition along (u v : point) : Qc := let '(a, b, c) := u in let '(d, e, f) := v in (a * d + b * e + c * f)%Qc.
Definition from (v u : point) : point := let '(a, b, c) := u in let '(d, e, f) := v in ((d - a)%Qc, (e - b)%Qc, (f - c)%Qc).
Definition displaced (u v : point) : point := let '(a, b, c) := u in let '(d, e, f) := v in ((a + d)%Qc, (b + e)%Qc, (c + f)%Qc).
(** The mean of the positions of a list. *)
Definition middle (l : list point) : point :=
  ((total (map (fun p => fst (fst p)) l) / num (zlen l))%Qc, (total (map (fun p => snd (fst p)) l) / num (zlen l))%Qc, (total (map snd l) / num (zlen l))%Qc).
(** The mean, 0 of nothing. *)
Definition mean_or_0 (l : list complex) : complex := match mean_c l with Some z => z | None => (0%Qc, 0%Qc) end.
(** The pointing directions: an altitude of 0 to 90 and an azimuth of 0 to 360 degrees. *)
Definition in_range (az alt : Qc) : Prop := (0 <= alt /\ alt <= Q2Qc 90)%Qc /\ (0 <= az /\ az <= Q2Qc 360)%Qc.
(** The delay of an antenna at a frequency: that of the cable, less the time by which the wave arrives earlier than at the middle of the stands up to 256. *)
Definition delay_at (source : point) (light : Qc) (ants : list bant) (a : bant) (f : Qc) : Qc :=
  (b_cable a f - along source (from (b_xyz a) (middle (map b_xyz (filter (fun a => b_stand a <=? 256) ants)))) / light)%Qc.
(** The beam of polarization p: for each frequency and time the mean of the signals of its good antennas (status 33), each turned by the phase of its delay
    less tmin. *)
Definition beam_of (E : Qc -> complex) (delay : bant -> Qc -> Qc) (tmin : Qc) (ants : list bant) (freq : list Qc) (nTime : Z) (data : list (list (list complex))) (p : Z)
  : list (list complex) :=
  map (fun k => let f := znth 0%Qc k freq in
    map (fun t => mean_or_0 (map (fun ax => c_times (E (f * (delay (fst ax) f - tmin))%Qc) (znth (0%Qc, 0%Qc) t (znth [] k (snd ax))))
                                 (filter (fun ax => (b_pol (fst ax) =? p) && (b_status (fst ax) =? 33)) (combine ants data)))) (upto 0 nTime)) (upto 0 (zlen freq)).
