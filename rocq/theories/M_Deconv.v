(** Model of the deconvolution loops of lsl/imaging/deconv.py: _minor_cycle, clean and lsq.
    Numbers are exact and images finite (the code works in double precision, and an image may hold NaN below the horizon).  An image of H by W cells is a
    function of the cell; only the cells inside are ever looked at. *)
From Coq Require Import List ZArith QArith Qcanon Bool.
From Verif Require Import LibList M_Py M_Num M_Base.
Import ListNotations.
Open Scope Z_scope.

Notation image := (Z * Z -> Qc).
Definition cells (H W : Z) : list (Z * Z) := flat_map (fun x => map (fun y => (x, y)) (range 0 W)) (range 0 H).
Definition same_cell (c d : Z * Z) : bool := (fst c =? fst d) && (snd c =? snd d).
(** a[c] += v *)
Definition add_at (c : Z * Z) (v : Qc) (a : image) : image := fun d => if same_cell c d then (a d + v)%Qc else a d.
Definition qabs (x : Qc) : Qc := if Qle_bool 0 x then x else (- x)%Qc.
Definition qlt (x y : Qc) : bool := negb (Qle_bool y x).
Definition qz (z : Z) : Qc := Q2Qc (inject_Z z).
(** numpy: a.sum(), a.max() ([None]: ValueError, the array is empty), a.mean(), a.std()**2 *)
Definition isum (l : list Qc) : Qc := fold_left (fun s x => (s + x)%Qc) l 0%Qc.
Definition imax (l : list Qc) : option Qc := match l with [] => None | x :: l => Some (fold_left (fun m y => if qlt m y then y else m) l x) end.
Definition imean (l : list Qc) : Qc := (isum l / qz (zlen l))%Qc.
Definition ivar (l : list Qc) : Qc := imean (map (fun x => (x - imean l) * (x - imean l))%Qc l).

Section Images.
Context (H W : Z).
Definition values (a : image) : list Qc := map a (cells H W).
(** peak = np.where(a == a.max()); peak[0][0], peak[1][0]: the first in the order of the rows (656-660, 208-211) *)
Definition peak_of (a : image) : option (Z * Z) := match imax (values a) with None => None | Some m => find (fun c => Qc_eq_bool (a c) m) (cells H W) end.
(** np.roll(np.roll(beam, sx, axis=0), sy, axis=1) *)
Definition roll (sx sy : Z) (b : image) : image := fun c => b ((fst c - sx) mod H, (snd c - sy) mod W).

(** _minor_cycle (649-677), for a beam of the size of the image.  abs(peakV - mean) < 2 std is compared on the squares. *)
Definition quiet_at (working : image) (p : Z * Z) : bool :=
  qlt ((working p - imean (values working)) * (working p - imean (values working)))%Qc (qz 4 * ivar (values working))%Qc.
Fixpoint minor_loop (n : nat) (gain : Qc) (beam cleaned working : image) : res image :=
  match n with
  | O => Ok (fun c => (cleaned c + working c)%Qc)
  | S n =>
      match peak_of (fun c => qabs (working c)) with
      | None => Raise ValueError
      | Some p =>
          if quiet_at working p then Ok (fun c => (cleaned c + working c)%Qc)
          else let beam2 := roll (fst p - H / 2) (snd p - W / 2) beam in
               let toRemove := fun c => (gain * working p * beam2 c)%Qc in
               minor_loop n gain beam (add_at p (isum (values toRemove)) cleaned) (fun c => (working c - toRemove c)%Qc)
      end
  end.
Definition minor_cycle (img beam : image) (gain : Qc) (max_iter : Z) : res image :=
  minor_loop (Z.to_nat max_iter) gain beam (fun c => (img c * 0)%Qc) (fun c => (img c * 1)%Qc).

(** The shares of one component along one axis: side1/side2 of the cells int(x) and int(x)+1 (278-292) *)
Definition half : Qc := Q2Qc (1 # 2).
Definition side (x : Qc) (l : Z) : Qc := if qlt x (qz l) then ((x + half) - (qz l - half))%Qc else ((qz l + half) - (x - half))%Qc.
(** An index of a numpy array of n: negative ones count from the end; [None]: IndexError *)
Definition index (n i : Z) : option Z := if (- n <=? i) && (i <? n) then Some (if i <? 0 then i + n else i) else None.
Definition add_index (l m : Z) (v : Qc) (a : image) : res image :=
  match index H l, index W m with Some x, Some y => Ok (add_at (x, y) v a) | _, _ => Raise IndexError end.
Definition spread (amount x y : Qc) (cleaned : image) : res image :=
  fold_left (fun r lm => bind r (fun a => add_index (fst lm) (snd lm) (side x (fst lm) * side y (snd lm) * amount)%Qc a))
    (flat_map (fun l => map (fun m => (l, m)) (range (py_int (this y)) (py_int (this y) + 2))) (range (py_int (this x)) (py_int (this x) + 2))) (Ok cleaned).

(** _interpolate (28-46) *)
Definition look (a : image) (l m : Z) : option Qc := match index H l, index W m with Some x, Some y => Some (a (x, y)) | _, _ => None end.
Definition interpolate (a : image) (x y : Qc) : option Qc :=
  let x1 := py_int (this x) in let x2 := x1 + 1 in let y1 := py_int (this y) in let y2 := y1 + 1 in
  if qlt x 0%Qc then None else if qlt y 0%Qc then None
  else match look a x1 y1, look a x2 y1, look a x1 y2, look a x2 y2 with
       | Some a11, Some a21, Some a12, Some a22 =>
           Some ((a11 * (qz x2 - x) * (qz y2 - y) + a21 * (x - qz x1) * (qz y2 - y) + a12 * (qz x2 - x) * (y - qz y1) + a22 * (x - qz x1) * (y - qz y1)) / qz ((x2 - x1) * (y2 - y1)))%Qc
       | _, _, _, _ => None
       end.
Definition located (a : image) (x y : Qc) (p : Z * Z) : Qc := match interpolate a x y with Some v => v | None => a p end.

(** a[i:j] along an axis of n cells: the first and the end of the cells chosen *)
Definition bound (n i : Z) : Z := if i <? 0 then Z.max 0 (i + n) else Z.min i n.
(** round(x * 5) / 5 (220-222) *)
Definition fifths (x : Qc) : Qc := (qz (py_round (this (x * qz 5)%Qc)) / qz 5)%Qc.

(** clean (123-356) from the point where the image, the positions [ra] and [dec] of the cells and the width [FWHM] of the restoring beam are known.
    [fit a x0 x1 y0 y1]: _fit_gaussian of that part of the image, the position it finds; [response ra dec]: the image of a unit point source, divided by its
    maximum; [deviation]: a.std().  max/std < sigma is compared as max < sigma std: for std = 0 numpy's inf and NaN answer the same.  The logging and the plots are left out, with them the azimuth and altitude of the peak. *)
Context (fit : image -> Z -> Z -> Z -> Z -> Qc * Qc) (response : Qc -> Qc -> image) (deviation : list Qc -> Qc).
Record cstate := mkC { c_cleaned : image; c_working : image; c_beams : list (Z * Z * image) }.
Definition cached (k : Z * Z) (l : list (Z * Z * image)) : option image := option_map snd (find (fun e => same_cell (fst e) k) l).
Inductive round_of := Goes (s : cstate) | Stops (s : cstate) | Fails (e : exn).
Definition position (FWHM : Z) (working : image) (p : Z * Z) : option (Qc * Qc) :=
  let x0 := bound H (fst p - FWHM / 2) in let x1 := bound H (fst p + FWHM / 2 + 1) in
  let y0 := bound W (snd p - FWHM / 2) in let y1 := bound W (snd p + FWHM / 2 + 1) in
  if (x0 <? x1) && (y0 <? y1) then
    let o := fit working x0 x1 y0 y1 in Some (fifths (qz (fst p - FWHM / 2) + fst o)%Qc, fifths (qz (snd p - FWHM / 2) + snd o)%Qc)
  else None.
(** One turn of the loop (206-315) *)
Definition clean_step (ra dec : image) (FWHM : Z) (gain sigma : Qc) (s : cstate) : round_of :=
  match peak_of (c_working s) with
  | None => Fails ValueError
  | Some p =>
      let peakV := c_working s p in
      match position FWHM (c_working s) p with
      | None => Fails ValueError
      | Some (x, y) =>
          let peakRA := located ra x y p in let peakDec := located dec x y p in
          if qlt peakV 0%Qc then Stops s
          else
            let k := (py_int (this (x * qz 5)%Qc), py_int (this (y * qz 5)%Qc)) in
            let bb := match cached k (c_beams s) with Some b => (b, c_beams s) | None => (response peakRA peakDec, (k, response peakRA peakDec) :: c_beams s) end in
            let working := fun c => (c_working s c - gain * peakV * fst bb c)%Qc in
            match spread (gain * peakV)%Qc x y (c_cleaned s) with
            | Raise e => Fails e
            | Ok cleaned =>
                let s' := mkC cleaned working (snd bb) in
                match imax (values working) with
                | None => Fails ValueError
                | Some m => if qlt m (sigma * deviation (values working))%Qc then Stops s' else Goes s'
                end
            end
      end
  end.
Fixpoint clean_loop (n : nat) (ra dec : image) (FWHM : Z) (gain sigma : Qc) (s : cstate) : res cstate :=
  match n with
  | O => Ok s
  | S n => match clean_step ra dec FWHM gain sigma s with Fails e => Raise e | Stops s => Ok s | Goes s => clean_loop n ra dec FWHM gain sigma s end
  end.
(** The restored image (320-323, 355-356): [None] is NaN or infinite; masked cells are not looked at in the maximum and NaN here. *)
Definition restored (mask : Z * Z -> bool) (conv img working : image) : Z * Z -> option Qc :=
  match imax (map conv (filter (fun c => negb (mask c)) (cells H W))), imax (values (fun c => (img c - working c)%Qc)) with
  | Some mc, Some mi => fun c => if mask c then None else if Qc_eq_bool mc 0 then None else Some (conv c * (mi / mc) + working c)%Qc
  | _, _ => fun _ => None
  end.
Definition clean (convolve : image -> image) (mask : Z * Z -> bool) (ra dec : image) (FWHM : Z) (gain sigma : Qc) (max_iter : Z) (img : image) : res (Z * Z -> option Qc) :=
  bind (clean_loop (Z.to_nat max_iter) ra dec FWHM gain sigma (mkC (fun _ => 0%Qc) (fun c => (0 + img c)%Qc) []))
    (fun s => Ok (restored mask (convolve (c_cleaned s)) img (c_working s))).  (* the name i of line 318 is bound since line 192 *)
End Images.

Section Lsq.
(** lsq (681-898) from the point where the image, its restoring beam, its mask and the scales are known.  [simulate m]: the image of the point sources at the
    cells of the model m that are positive and not masked, [None] if build_sim_data raises (794-799); [deviation]: a.std(); [convolve]: with the restoring beam.
    The logging and plots are left out. *)
Context (H W : Z) (simulate : image -> option image) (deviation : list Qc -> Qc) (convolve : image -> image) (beamClean : image) (mask : Z * Z -> bool).
Context (img : image) (gain rtol simToModel modelToSim : Qc).
(** The arrays that are updated in place live in a memory; the names mdl and oldModel refer to places in it.  The others are never updated in place. *)
Record lstate := mkL { l_heap : Z -> image; l_mdl : Z; l_old : Z; l_diff : image; l_scaled : image; l_oldRMS : Qc; l_oldDiff : image; l_mdl2 : option image; l_hist : list Qc }.
Definition set_heap (r : Z) (a : image) (h : Z -> image) : Z -> image := fun q => if q =? r then a else h q.
Definition clip (a : image) : image := fun c => if Qle_bool (a c) 0 then 0%Qc else a c.
(** The first model (744-746, 767): place 0 *)
Definition first_model (m : Qc) : image :=
  let a := fun c => (img c * 0 + m)%Qc in let a := fun c => if qlt (a c) 0%Qc then 0%Qc else a c in let a := fun c => if mask c then 0%Qc else a c in fun c => (a c * modelToSim)%Qc.
(** 768-773 *)
Definition lsq_start (m : Qc) : lstate :=
  let mdl := first_model m in let diff := fun c => (img c - mdl c)%Qc in
  mkL (fun _ => mdl) 0 0 diff (fun c => (0 * diff c / gain)%Qc) (deviation (values H W diff) * qz 1000000)%Qc (fun c => (diff c * 0)%Qc) None [].
Inductive turn := LGoes (s : lstate) | LStops (s : lstate) | LFails (e : exn).
(** One turn of the loop (775-847) *)
Definition lsq_step (s : lstate) : turn :=
  let h1 := set_heap (l_mdl s) (fun c => (l_heap s (l_mdl s) c + l_scaled s c * gain)%Qc) (l_heap s) in
  let h := set_heap (l_mdl s) (clip (h1 (l_mdl s))) h1 in
  match simulate (h (l_mdl s)) with
  | None => LStops (mkL h (l_mdl s) (l_old s) (l_diff s) (l_scaled s) (l_oldRMS s) (l_oldDiff s) (l_mdl2 s) (l_hist s))
  | Some simImg =>
      let diff := fun c => (img c - simImg c)%Qc in
      match minor_cycle H W diff beamClean (Q2Qc (1 # 10)) 2000 with
      | Raise e => LFails e
      | Ok diff2 =>
          let RMS := deviation (values H W diff) in
          let mdl2 := fun c => (h (l_mdl s) c * modelToSim)%Qc in
          let scaled := fun c => (diff2 c * simToModel)%Qc in
          if qlt 0%Qc (RMS - l_oldRMS s)%Qc then LStops (mkL h (l_old s) (l_old s) (l_oldDiff s) scaled (l_oldRMS s) (l_oldDiff s) (Some mdl2) (l_hist s))
          else if qlt (qabs (RMS - l_oldRMS s)%Qc) rtol then LStops (mkL h (l_mdl s) (l_old s) diff2 scaled (l_oldRMS s) (l_oldDiff s) (Some mdl2) (l_hist s))
          else LGoes (mkL h (l_mdl s) (l_mdl s) diff2 scaled RMS diff2 (Some mdl2) (l_hist s ++ [RMS]))
      end
  end.
Fixpoint lsq_loop (n : nat) (s : lstate) : res lstate :=
  match n with O => Ok s | S n => match lsq_step s with LFails e => Raise e | LStops s => Ok s | LGoes s => lsq_loop n s end end.
(** 864-867, 898: the sum of the convolved model and the residuals; a name that is not bound (k when max_iter is 0, mdl2) is NameError; [None] is a masked cell *)
Definition lsq (max_iter : Z) : res (Z * Z -> option Qc) :=
  match imax (values H W img) with
  | None => Raise ValueError
  | Some m =>
      bind (lsq_loop (Z.to_nat max_iter) (lsq_start m))
        (fun s => if max_iter <=? 0 then Raise NameError
                  else match l_mdl2 s with None => Raise NameError | Some mdl2 => Ok (fun c => if mask c then None else Some (convolve mdl2 c + l_diff s c)%Qc) end)
  end.
End Lsq.
