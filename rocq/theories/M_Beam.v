(** Model of the phase-and-sum beam former: lsl/misc/beamformer.py and lsl/misc/beamformer.cpp, on the arithmetic of M_Corr.
    Numbers are exact (the code works in double precision and rounds the beam to single precision). *)
From Coq Require Import List ZArith QArith Qcanon Bool.
From Verif Require Import LibList M_Py M_Base M_Corr M_CorrPy.
Import ListNotations.
Open Scope Z_scope.

(** What is used of an antenna: stand.id, pol, combined_status, stand.xyz and cable.delay(freq). *)
Definition vec : Type := (Qc * Qc * Qc)%type.
Record bant := mkB { b_stand : Z; b_pol : Z; b_status : Z; b_xyz : vec; b_cable : Qc -> Qc }.
Definition vadd (u v : vec) : vec := let '(a, b, c) := u in let '(d, e, f) := v in ((a + d)%Qc, (b + e)%Qc, (c + f)%Qc).
Definition vsub (u v : vec) : vec := let '(a, b, c) := u in let '(d, e, f) := v in ((a - d)%Qc, (b - e)%Qc, (c - f)%Qc).
Definition vdot (u v : vec) : Qc := let '(a, b, c) := u in let '(d, e, f) := v in (a * d + b * e + c * f)%Qc.
Definition vover (u : vec) (n : Qc) : vec := let '(a, b, c) := u in ((a / n)%Qc, (b / n)%Qc, (c / n)%Qc).

(** calc_delay (beamformer.py 58-132) for a list of frequencies; angles in degrees.  [source] gives the unit vector of 107-111, [light] is the
    speed of light.  [None] is NaN: the mean over no stands. *)
Section Delay.
Context (source : Qc -> Qc -> vec) (light : Qc).
Definition centre (antennas : list bant) : option vec :=
  let good := filter (fun a => b_stand a <=? 256) antennas in
  match good with [] => None | _ => Some (vover (fold_left (fun s a => vadd s (b_xyz a)) good (0%Qc, 0%Qc, 0%Qc)) (qz (zlen good))) end.
Definition calc_delay (antennas : list bant) (freq : list Qc) (azimuth altitude : Qc) : res (list (list (option Qc))) :=
  if negb (Qle_bool 0 altitude) || negb (Qle_bool altitude 90) then Raise ValueError else
  if negb (Qle_bool 0 azimuth) || negb (Qle_bool azimuth 360) then Raise ValueError else
  Ok (map (fun a => map (fun f =>
        match centre antennas with
        | None => None
        | Some c => Some (b_cable a f - vdot (source azimuth altitude) (vsub (b_xyz a) c) / light)%Qc
        end) freq) antennas).
End Delay.

(** phase_and_sum_real, phase_and_sum_complex (beamformer.cpp 50-168); real data are complex data without imaginary part. *)
Section Engine.
Context (nInput nChan nTime : Z) (coeffs data : mem C) (valid0 valid1 : Z -> bool).
Definition TIME_BLOCK_DIM : Z := 32.
Definition norm_of (valid : Z -> bool) : Z := loop 0 nInput (fun i n => n + (if valid i then 1 else 0)) 0.
Definition inverse (n : Z) : Qc := if 0 <? n then (1 / qz n)%Qc else 0%Qc.
Definition gather (c t bntime : Z) : mem C * mem C :=
  loop 0 nInput (fun i s => loop 0 bntime (fun tb s =>
      let '(p0, p1) := s in
      let inp := cmul (coeffs (i * nChan + c)) (data (i * nChan * nTime + c * nTime + t + tb)) in
      (put tb (cadd (p0 tb) (cscale (factor (valid0 i)) inp)) p0, put tb (cadd (p1 tb) (cscale (factor (valid1 i)) inp)) p1)) s)
    (fun _ => c0, fun _ => c0).
Definition time_block (c t : Z) (beam : mem C) : mem C :=
  let bntime := Z.min TIME_BLOCK_DIM (nTime - t) in
  let pols := gather c t bntime in
  loop 0 bntime (fun tb m => put (nChan * nTime + c * nTime + (t + tb)) (cscale (inverse (norm_of valid1)) (snd pols tb))
                            (put (c * nTime + (t + tb)) (cscale (inverse (norm_of valid0)) (fst pols tb)) m)) beam.
(** for(t=0; t<ntime; t+=TIME_BLOCK_DIM) *)
Definition bengine : mem C :=
  loop 0 nChan (fun c m => loop 0 ((nTime + TIME_BLOCK_DIM - 1) / TIME_BLOCK_DIM) (fun b m => time_block c (b * TIME_BLOCK_DIM) m) m) (fun _ => c0).
End Engine.

(** phase_and_sum (beamformer.py 135-208) for a list of frequencies; E x is exp(2 pi i x).  The data have as many rows as there are antennas and
    as many channels as frequencies (otherwise the engine raises RuntimeError, and numpy's einsum, tried next, may or may not take them: not modelled).
    The result is a list of one or two polarizations; [None] where it is NaN throughout. *)
Definition all_some {A} (l : list (option A)) : option (list A) :=
  fold_right (fun o r => match o, r with Some a, Some r => Some (a :: r) | _, _ => None end) (Some []) l.
Definition good_pol (p : Z) (a : bant) : bool := (b_pol a =? p) && (b_status a =? 33).
Definition phase_and_sum (source : Qc -> Qc -> vec) (light : Qc) (E : Qc -> C) (antennas : list bant) (nTime : Z) (data : list (list (list C)))
    (freq : list Qc) (azimuth altitude : Qc) : res (option (list (list (list C)))) :=
  bind (calc_delay source light antennas freq azimuth altitude) (fun delays =>
  match concat delays with
  | [] => Raise ValueError
  | _ =>
      match all_some (map all_some delays) with
      | None => Ok None
      | Some delays =>
          let dmin := match concat delays with x :: l => qmin x l | [] => 0%Qc end in
          let bln := map (fun row => map (fun fd => E (fst fd * (snd fd - dmin))%Qc) (combine freq row)) delays in
          let nInput := zlen antennas in
          let nChan := zlen freq in
          let valid p := fun i => znth false i (map (good_pol p) antennas) in
          let beam := bengine nInput nChan nTime (flat nChan bln (fun _ => c0)) (cube nChan nTime data) (valid 0) (valid 1) in
          let output p := cells nChan nTime (p * nChan * nTime) beam in
          if negb (existsb (good_pol 0) antennas) then Ok (Some [output 1])
          else if negb (existsb (good_pol 1) antennas) then Ok (Some [output 0])
          else Ok (Some [output 0; output 1])
      end
  end).

(** circularize (beamformer.py 326-348) without the division by the root of two. *)
Definition circularize (iau : bool) (x y : C) : C * C :=
  let i := (0%Qc, (if iau then 1 else - (1))%Qc) in (cadd x (cmul i y), csub x (cmul i y)).
