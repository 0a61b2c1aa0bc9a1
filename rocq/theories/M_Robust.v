(** Model of lsl/statistics/robust.py (mean, mode, std, checkfit, linefit, the rescaling of polyfit) and lsl/statistics/kurtosis.py.
    Numbers are exact rationals (the code works in double precision), decimal constants are exact.  Square roots are avoided: a standard
    deviation is kept as its square, and a comparison of a number with a root is a comparison of squares.
    The arguments axis and dtype and masked arrays are not modelled: the data are one list of numbers. *)
From Coq Require Import List ZArith QArith Qcanon Qcabs Bool Arith.
Import ListNotations.
Open Scope Qc_scope.

Definition qle (a b : Qc) : bool := Qle_bool a b.
Definition qlt (a b : Qc) : bool := negb (Qle_bool b a).
Definition qn (n : nat) : Qc := Q2Qc (inject_Z (Z.of_nat n)).
Definition dec (n : Z) (d : positive) : Qc := Q2Qc (n # d).

(** x.sum(), x.mean(): [None] is the mean of nothing, NaN. *)
Definition qsum (l : list Qc) : Qc := fold_right Qcplus 0 l.
Definition qmean (l : list Qc) : option Qc := match l with [] => None | _ => Some (qsum l / qn (length l)) end.
Definition sq (x : Qc) : Qc := x * x.

(** numpy.sort *)
Fixpoint insert (x : Qc) (l : list Qc) : list Qc := match l with [] => [x] | y :: l' => if qle x y then x :: l else y :: insert x l' end.
Definition sort (l : list Qc) : list Qc := fold_right insert [] l.
Definition item (l : list Qc) (i : nat) : Qc := nth i l 0.
(** numpy.median: the middle element or the mean of the two in the middle; NaN of nothing. *)
Definition median (l : list Qc) : option Qc :=
  let s := sort l in let n := length s in
  match n with
  | O => None
  | _ => Some (if Nat.odd n then item s (n / 2) else (item s (n / 2 - 1) + item s (n / 2)) / qn 2)
  end.

(** robust.py 31-33 *)
Definition epsilon : Qc := dec 1 100000000000000000000.
Definition delta : Qc := dec 5 10000000.

(** What a call gives: a number, an infinite or undefined number, or an exception. *)
Inductive res := Num (x : Qc) | NaN | Inf | ValueError | UnboundLocalError | IndexError.

(** robust.py 118-120, 233-235: numpy.abs(data-data0), the median deviation with its fallback. *)
Definition devs (c : Qc) (l : list Qc) : list Qc := map (fun x => Qcabs (x - c)) l.
Definition max_abs_dev (c : Qc) (l : list Qc) : option Qc :=
  match median (devs c l) with
  | None => None
  | Some m =>
      let m := m / dec 6745 10000 in
      if qlt m epsilon then match qmean (devs c l) with Some a => Some (a / dec 8 10) | None => None end else Some m
  end.

(** robust.py 128-133, 144-149: what the deviation is divided by; 1 if it is not. *)
Definition correction (cut : Qc) : Qc :=
  let s := if qlt 1 cut then cut else 1 in
  if qle s (dec 45 10) then - dec 15405 100000 + dec 90723 100000 * s - dec 23584 100000 * (s * s) + dec 20142 1000000 * (s * s * s) else 1.

(** robust.py 126: the mean square deviation from c. *)
Definition variance (c : Qc) (l : list Qc) : Qc := qsum (map (fun x => sq (x - c)) l) / qn (length l).
(** abs(d) <= cut*sqrt(v)/k, all but d not negative or cut negative. *)
Definition within_root (d cut v k : Qc) : bool := if qlt cut 0 then false else qle (sq (d * k)) (sq cut * v).

(** robust.py 94-151: mean().  Where a mean is NaN so is the deviation, and no point is within it. *)
Definition mean (cut : Qc) (data : list Qc) : res :=
  match median data with
  | None => ValueError
  | Some data0 =>
      match max_abs_dev data0 data with
      | None => ValueError
      | Some mad =>
          let cutOff := cut * mad in
          let good := filter (fun x => qle (Qcabs (x - data0)) cutOff) data in
          match qmean good with
          | None => ValueError
          | Some dataMean =>
              let v := variance dataMean good in
              let good2 := filter (fun x => within_root (x - data0) cut v (correction cut)) data in
              match qmean good2 with
              | Some m => if (3 <? length good2)%nat then Num m else ValueError
              | None => ValueError
              end
          end
      end
  end.

(** robust.py 205-256: std(); the result is the square of what the code returns. *)
Definition u2 (data0 mad x : Qc) : Qc := sq ((x - data0) / dec 6 1 / mad).
Definition std_core (data0 mad : Qc) (data : list Qc) : res :=
  let good := filter (fun x => qle (u2 data0 mad x) 1) data in
  if (length good <? 3)%nat then ValueError else
  let numerator := qsum (map (fun x => sq (x - data0) * sq (sq (1 - u2 data0 mad x))) good) in
  let denominator := qsum (map (fun x => (1 - u2 data0 mad x) * (1 - dec 5 1 * u2 data0 mad x)) good) in
  let below := denominator * (denominator - 1) in
  if Qc_eq_dec below 0 then if Qc_eq_dec numerator 0 then Num 0 else Inf else
  let sigma := qn (length data) * numerator / below in
  if qlt 0 sigma then Num sigma else Num 0.
Definition std (zero : bool) (data : list Qc) : res :=
  match (if zero then Some 0 else median data) with
  | None => ValueError
  | Some data0 =>
      match max_abs_dev data0 data with
      | None => ValueError
      | Some mad => if qlt mad epsilon then Num 0 else std_core data0 mad data
      end
  end.

(** robust.py 181-188: the scan for the narrowest half. *)
Definition hsm_scan (data : list Qc) (N : nat) : Qc * option nat :=
  fold_left (fun '(wMin, j) i => let w := item data (i + N - 1) - item data i in if qlt w wMin then (w, Some i) else (wMin, j))
            (seq 0 N) (item data (length data - 1) - item data 0, None).
(** robust.py 166-188: _hsm(); the number bounds the depth of the recursion. *)
Fixpoint hsm (fuel : nat) (data : list Qc) : res :=
  match fuel with
  | O => NaN
  | S fuel =>
      match length data with
      | 0%nat => IndexError
      | 1%nat => Num (item data 0)
      | 2%nat => Num ((item data 0 + item data 1) / qn 2)
      | 3%nat =>
          let i1 := item data 1 - item data 0 in
          let i2 := item data 2 - item data 1 in
          if qlt i1 i2 then Num ((item data 0 + item data 1) / qn 2)
          else if qlt i1 i2 then Num ((item data 1 + item data 2) / qn 2)
          else Num (item data 1)
      | n =>
          let N := (n / 2 + n mod 2)%nat in
          match snd (hsm_scan data N) with
          | None => UnboundLocalError
          | Some j => hsm fuel (firstn N (skipn j data))
          end
      end
  end.
(** robust.py 154-202: mode() *)
Definition mode (data : list Qc) : res := let s := sort data in hsm (S (length s)) s.

(** robust.py 259-306: checkfit() for the standard limit of six deviations, with the square of sigma; [None] where std() raises an exception
    or the weights are divided by zero.  status, sigma, fracDev, nGood, biweights. *)
Definition checkfit (data fit : list Qc) : option (bool * Qc * Qc * nat * list Qc) :=
  let deviation := map (fun p => fst p - snd p) (combine data fit) in
  match std true deviation with
  | Num s2 =>
      if qlt s2 (sq epsilon) then Some (false, s2, 0, 0%nat, []) else
      let use := filter (fun p => qlt epsilon (Qcabs (snd p))) (combine deviation fit) in
      let fracDev := if (length use <? 3)%nat then Some 0 else median (map (fun p => Qcabs (fst p / snd p)) use) in
      match fracDev with
      | None => None
      | Some fracDev =>
          if qlt fracDev delta then Some (false, s2, fracDev, 0%nat, []) else
          let scaled2 := map (fun d => let r := sq d / (dec 36 1 * s2) in if qlt 1 r then 1 else r) deviation in
          let nGood := (length data - length (filter (fun d => qlt 1 (sq d / (dec 36 1 * s2))) deviation))%nat in
          let w := map (fun r => 1 - r) scaled2 in
          if Qc_eq_dec (qsum w) 0 then None else
          Some (true, s2, fracDev, nGood, map (fun x => x / qsum w) w)
      end
  | _ => None
  end.

(** robust.py 336-343: numpy.argsort of x applied to both (ties in the order of the data; numpy promises no order). *)
Fixpoint insert2 (p : Qc * Qc) (l : list (Qc * Qc)) : list (Qc * Qc) :=
  match l with [] => [p] | q :: l' => if qle (fst p) (fst q) then p :: l else q :: insert2 p l' end.
Definition sort2 (l : list (Qc * Qc)) : list (Qc * Qc) := fold_right insert2 [] l.

(** robust.py 309-410: linefit() without the bisector, up to the iteration over weighted fits (412 on), which is reached with
    [Iterate slope intercept biweights]: slope and intercept for the centred data.
    [Line slope intercept]: what is returned; [Undefined]: a division by zero or an exception of std(). *)
Inductive line := Line (slope intercept : Qc) | Iterate (slope intercept : Qc) (w : list Qc) | Undefined.
Definition least_squares (x y : list Qc) : option (Qc * Qc) :=
  let sx := qsum x in
  let sy := qsum y in
  let sxy := qsum (map (fun p => fst p * snd p) (combine x y)) in
  let sxx := qsum (map sq x) in
  let d := sxx - sx * sx in
  if qlt (Qcabs d) epsilon then None else Some ((sxy - sx * sy) / d, (sxx * sy - sx * sxy) / d).
Definition after_fit (x0 y0 slope yint : Qc) (fit : option (bool * Qc * Qc * nat * list Qc)) : line :=
  match fit with
  | None => Undefined
  | Some (_, _, _, nGood, w) => if (nGood <? 2)%nat then Line slope (yint + y0 - slope * x0) else Iterate slope yint w
  end.
Definition linefit (xIn yIn : list Qc) : line :=
  match qmean xIn, qmean yIn with
  | Some x0, Some y0 =>
      let x := map (fun v => v - x0) xIn in
      let y := map (fun v => v - y0) yIn in
      let n := length xIn in
      let plain :=
        match least_squares x y with
        | None => Line 0 0
        | Some (slope, yint) => after_fit x0 y0 slope yint (checkfit y (map (fun v => yint + slope * v) x))
        end in
      if (5 <? n)%nat then
        let s := sort2 (combine x y) in
        let half := (n / 2 - 1 + 1)%nat in
        let u := map fst s in
        let v := map snd s in
        match median (firstn half u), median (skipn half u), median (firstn half v), median (skipn half v) with
        | Some x1, Some x2, Some y1, Some y2 =>
            let '(x1, x2, y1, y2) :=
              if qlt (Qcabs (x2 - x1)) epsilon then (item u 0, item u (n - 1), item v 0, item v (n - 1)) else (x1, x2, y1, y2) in
            if Qc_eq_dec (x2 - x1) 0 then Undefined else
            let slope := (y2 - y1) / (x2 - x1) in
            let yint := y1 - slope * x1 in
            match checkfit y (map (fun v => yint + slope * v) x) with
            | None => Undefined
            | Some (_, _, _, nGood, w) => if (nGood <? 2)%nat then plain else Iterate slope yint w
            end
        | _, _, _, _ => Undefined
        end
      else plain
  | _, _ => Undefined
  end.

(** robust.py 487-510: __polyfit_rescale(), the coefficients with the constant first on the way in and last on the way out. *)
Definition rescale (c : list Qc) (x0 y0 : Qc) : list Qc :=
  let x2 := x0 * x0 in let x3 := x2 * x0 in let x4 := x3 * x0 in let x5 := x4 * x0 in
  rev match c with
  | [c0; c1] => [c0 - c1 * x0 + y0; c1]
  | [c0; c1; c2] => [c0 - c1 * x0 + c2 * x2 + y0; c1 - dec 2 1 * c2 * x0; c2]
  | [c0; c1; c2; c3] => [c0 - c1 * x0 + c2 * x2 - c3 * x3 + y0; c1 - dec 2 1 * c2 * x0 + dec 3 1 * c3 * x2; c2 - dec 3 1 * c3 * x0; c3]
  | [c0; c1; c2; c3; c4] =>
      [c0 - c1 * x0 + c2 * x2 - c3 * x3 + c4 * x4 + y0; c1 - dec 2 1 * c2 * x0 + dec 3 1 * c3 * x2 - dec 4 1 * c4 * x3;
       c2 - dec 3 1 * c3 * x0 + dec 6 1 * c4 * x2; c3 - dec 4 1 * c4 * x0; c4]
  | [c0; c1; c2; c3; c4; c5] =>
      [c0 - c1 * x0 + c2 * x2 - c3 * x3 + c4 * x4 - c5 * x5 + y0; c1 - dec 2 1 * c2 * x0 + dec 3 1 * c3 * x2 - dec 4 1 * c4 * x3 + dec 5 1 * c5 * x4;
       c2 - dec 3 1 * c3 * x0 + dec 6 1 * c4 * x2 - dec 10 1 * c5 * x3; c3 - dec 4 1 * c4 * x0 + dec 10 1 * c5 * x2; c4 - dec 5 1 * c5 * x0; c5]
  | _ => c
  end.
(** robust.py 513-547, 569-571: polyfit() for fewer than 10000 points, up to the iteration over weighted fits (572 on).  [fit] is numpy's
    polyfit of numpy.polynomial.polynomial, the constant first.  [PolyUndefined]: no points, 10000 or more, or an exception of checkfit(). *)
Inductive poly := Poly (c : list Qc) | PolyIterate | PolyUndefined.
Definition polyval (u : Qc) (c : list Qc) : Qc := fold_right (fun a v => a + u * v) 0 c.
Definition polyfit (fit : list Qc -> list Qc -> nat -> list Qc) (x y : list Qc) (order : nat) : poly :=
  match qmean x, qmean y with
  | Some mx, Some my =>
      if (10000 <=? Z.of_nat (length x))%Z then PolyUndefined else
      let x0 := if (order <? 6)%nat then mx else 0 in
      let y0 := if (order <? 6)%nat then my else 0 in
      let u := map (fun v => v - x0) x in
      let v := map (fun v => v - y0) y in
      let cc := fit u v order in
      match checkfit v (map (fun a => polyval a cc) u) with
      | None => PolyUndefined
      | Some (_, _, _, nGood, _) => if (nGood =? 0)%nat then Poly (rescale cc x0 y0) else PolyIterate
      end
  | _, _ => PolyUndefined
  end.

(** kurtosis.py 144-168: spectral_power() of one list (axis=None), spectral_fft() of one list of complex numbers. *)
Definition spectral_power (x : list Qc) (N : Qc) : option Qc :=
  let M := qn (length x) in
  if Qc_eq_dec (sq (qsum x)) 0 then None else
  if Qc_eq_dec (M - 1) 0 then None else
  Some ((M * qsum (map sq x) / sq (qsum x) - 1) * ((M * N + 1) / (M - 1))).
Definition spectral_fft (x : list (Qc * Qc)) : option Qc := spectral_power (map (fun z => sq (fst z) + sq (snd z)) x) 1.
(** The same for each row of a matrix, axis=1: M is the number of rows. *)
Definition spectral_power_rows (x : list (list Qc)) (N : Qc) : list (option Qc) :=
  let M := qn (length x) in
  map (fun r => if Qc_eq_dec (sq (qsum r)) 0 then None else if Qc_eq_dec (M - 1) 0 then None else
                Some ((M * qsum (map sq r) / sq (qsum r) - 1) * ((M * N + 1) / (M - 1)))) x.
