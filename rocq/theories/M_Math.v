(** Model of lsl/misc/mathutils.py: regrid with linear interpolation, downsample, smooth.  Numbers are exact rationals. *)
From Coq Require Import String List ZArith QArith Qcanon Bool.
From Verif Require Import LibList M_Py M_Base.
Import ListNotations.
Open Scope Z_scope.

Definition qint (z : Z) : Qc := Q2Qc (inject_Z z).
Definition asum (l : list Qc) : Qc := fold_left Qcplus l 0%Qc.

(** downsample (mathutils.py 81-99) for a factor that is not negative: the sums along the rows of np.reshape(vector, (len//factor, factor)). *)
Definition downsample (vector : list Qc) (factor : Z) (rescale : bool) : res (list Qc) :=
  if factor =? 0 then Raise ZeroDivisionError else
  let vector := if zlen vector mod factor =? 0 then vector else ztake (zlen vector / factor * factor) vector in
  let rows := map (fun r => map (fun c => znth 0%Qc (r * factor + c) vector) (range 0 factor)) (range 0 (zlen vector / factor)) in
  Ok (map (fun row => asum (if rescale then map (fun x => (x / qint factor)%Qc) row else row)) rows).

(** np.interp for increasing x: the last element at or before v, and the line to the next one. *)
Fixpoint interp_from (x y : list Qc) (v : Qc) : Qc :=
  match x, y with
  | x0 :: xs, y0 :: ys =>
      match xs, ys with
      | x1 :: _, y1 :: _ => if Qle_bool x1 v then interp_from xs ys v else ((y1 - y0) / (x1 - x0) * (v - x0) + y0)%Qc
      | _, _ => y0
      end
  | _, _ => 0%Qc
  end.
Fixpoint amin (x : Qc) (l : list Qc) : Qc := match l with [] => x | y :: l => amin (if Qle_bool x y then x else y) l end.
Fixpoint amax (x : Qc) (l : list Qc) : Qc := match l with [] => x | y :: l => amax (if Qle_bool y x then x else y) l end.
Definition array_min (l : list Qc) : res Qc := match l with [] => Raise ValueError | x :: l => Ok (amin x l) end.
Definition array_max (l : list Qc) : res Qc := match l with [] => Raise ValueError | x :: l => Ok (amax x l) end.
(** regrid, _regrid_linear (mathutils.py 29-60) with method='linear'; lists of different length are a ValueError of np.interp. *)
Definition regrid_linear (x y newx : list Qc) : res (list Qc) :=
  bind (array_min newx) (fun nmin => bind (array_min x) (fun xmin =>
  if negb (Qle_bool xmin nmin) then Raise ValueError else
  bind (array_max newx) (fun nmax => bind (array_max x) (fun xmax =>
  if negb (Qle_bool nmax xmax) then Raise ValueError else
  if negb (zlen x =? zlen y) then Raise ValueError else
  Ok (map (interp_from x y) newx))))).

(** x[start:1:-1] and x[-1:stop:-1], start and -stop not negative (slices of Python) *)
Definition down_to_2 (x : list Qc) (start : Z) : list Qc := let s := Z.min start (zlen x - 1) in map (fun k => znth 0%Qc (s - k) x) (range 0 (s - 1)).
Definition from_end (x : list Qc) (n : Z) : list Qc := map (fun k => znth 0%Qc (zlen x - 1 - k) x) (range 0 (Z.min (n - 1) (zlen x))).
(** np.convolve(w, s, mode='same') for len(s) >= len(w): the middle len(s) elements of the full convolution. *)
Definition full_conv (w s : list Qc) (k : Z) : Qc :=
  asum (map (fun j => (znth 0%Qc j w * (if (0 <=? k - j) && (k - j <? zlen s) then znth 0%Qc (k - j) s else 0))%Qc) (range 0 (zlen w))).
Definition convolve_same (w s : list Qc) : list Qc := map (fun k => full_conv w s (k + (zlen w - 1) / 2)) (range 0 (zlen s)).
(** smooth (mathutils.py 102-155) of a one-dimensional array of numbers; [windows] gives the elements of a numpy window of a given length.
    A window the elements of which add up to zero is not modelled. *)
Definition smooth (windows : string -> Z -> list Qc) (x : list Qc) (window_len : Z) (window : string) : res (list Qc) :=
  if zlen x <? window_len then Raise ValueError else
  if window_len <? 3 then Ok x else
  if negb (existsb (String.eqb window) ["flat"; "hanning"; "hamming"; "bartlett"; "blackman"]%string) then Raise ValueError else
  let x0 := znth 0%Qc 0 x in
  let xe := znth 0%Qc (zlen x - 1) x in
  let s := map (fun v => (qint 2 * x0 - v)%Qc) (down_to_2 x window_len) ++ x ++ map (fun v => (qint 2 * xe - v)%Qc) (from_end x window_len) in
  let w := if String.eqb window "flat" then repeat 1%Qc (Z.to_nat window_len) else windows window window_len in
  let y := convolve_same (map (fun v => (v / asum w)%Qc) w) s in
  Ok (ztake (zlen y - 2 * (window_len - 1)) (zdrop (window_len - 1) y)).
