(** Model of the spectrometer and correlator kernels: lsl/correlator/spec.cpp, stokes.cpp, core.cpp, blas.hpp, common.hpp.
    Numbers are exact (the code works in single and double precision); a cell that the code fills with NaN is [None].
    Arrays are flat and an address outside of them reads whatever is there.  A parallel loop is a loop over its indices in any order.
    The transform of one block of samples (FFTW) is a parameter. *)
From Coq Require Import List ZArith QArith Qround Qcanon Bool.
From Verif Require Import LibList M_Base.
Import ListNotations.
Open Scope Z_scope.

(** std::complex *)
Definition C : Type := (Qc * Qc)%type.
Definition c0 : C := (0%Qc, 0%Qc).
Definition cadd (x y : C) : C := ((fst x + fst y)%Qc, (snd x + snd y)%Qc).
Definition csub (x y : C) : C := ((fst x - fst y)%Qc, (snd x - snd y)%Qc).
Definition cmul (x y : C) : C := ((fst x * fst y - snd x * snd y)%Qc, (fst x * snd y + snd x * fst y)%Qc).
Definition conj (x : C) : C := (fst x, (- snd x)%Qc).
Definition cscale (a : Qc) (x : C) : C := ((a * fst x)%Qc, (a * snd x)%Qc).
(** common.hpp 132-135 *)
Definition abs2 (x : C) : Qc := (fst x * fst x + snd x * snd x)%Qc.
Definition qz (z : Z) : Qc := Q2Qc (inject_Z z).

(** Arrays in memory. *)
Definition mem (A : Type) := Z -> A.
Definition put {A} (a : Z) (v : A) (m : mem A) : mem A := fun x => if x =? a then v else m x.
(** for(k=lo; k<hi; k++) *)
Definition loop {S} (lo hi : Z) (f : Z -> S -> S) (s : S) : S := fold_left (fun s k => f k s) (range lo hi) s.
(** omp for: the indices in the order in which the iterations happen to be finished. *)
Definition par {S} (order : list Z) (f : Z -> S -> S) (s : S) : S := fold_left (fun s k => f k s) order s.

(** The number of transforms (spec.cpp 296, 422; stokes.cpp 377, 531; core.cpp 428, 630; the first four with fifoMax = 0), L the
    length of one: (1+isReal)*nChan.  [None]: division by zero. *)
Definition count_ffts (nSamps fifoMax L Overlap : Z) : option Z :=
  if Overlap =? 0 then None else
  let step := Z.quot L Overlap in
  if step =? 0 then None else Some (Z.quot (nSamps - fifoMax) step - Z.quot L step + 1).

Section Kernel.
Context (F : list C -> list C).
Context (L nTap Clip : Z) (window : option (Z -> Qc)).

(** Filling of in[] for the transform that starts at [secStart] of the row that starts at [row] (spec.cpp 87-112 and 191-207,
    stokes.cpp 90-124 and 226-249, core.cpp 176-200 and 288-304).  The kernels for real data go in steps of two samples, to the same effect. *)
Definition fetch (data : Z -> C) (row secStart k : Z) : C :=
  if secStart - L * (nTap - 1) + k <? row then c0 else data (secStart - L * (nTap - 1) + k).
(** Clip && abs(in[k]) >= Clip *)
Definition clipped (x : C) : bool :=
  negb (Clip =? 0) && ((Clip <=? 0) || Qle_bool (inject_Z (Clip * Clip)) (this (abs2 x))).
(** cleanFactor *)
Definition clean (data : Z -> C) (row secStart : Z) : bool :=
  loop 0 (L * nTap) (fun k b => if clipped (fetch data row secStart k) then false else b) true.
(** in[k] *= *(window + k) *)
Definition weighted (data : Z -> C) (row secStart k : Z) : C :=
  match window with None => fetch data row secStart k | Some w => cscale (w k) (fetch data row secStart k) end.
(** The transforms of the taps and their sum (spec.cpp 114-122 and 209-217); channel k of the transform, before any shift. *)
Definition tap (data : Z -> C) (row secStart l : Z) : list C :=
  F (map (weighted data row secStart) (range (l * L) (l * L + L))).
Definition channel (data : Z -> C) (row secStart k : Z) : C :=
  loop 1 nTap (fun l acc => cadd acc (znth c0 k (tap data row secStart l))) (znth c0 k (tap data row secStart 0)).
Definition factor (b : bool) : Qc := if b then 1%Qc else 0%Qc.

(** ** Spectra *)
Context (nSamps nFFT nChan Overlap : Z).
(** What is added to a cell; a NaN stays one. *)
Definition add (a : Z) (v : Qc) (m : mem (option Qc)) : mem (option Qc) :=
  put a (match m a with Some x => Some (x + v)%Qc | None => None end) m.
(** secStart (spec.cpp 85, 189) *)
Definition start (fifo i j : Z) : Z := fifo + nSamps * i + Z.quot (L * j) Overlap.

(** Shift FFTs (spec.cpp 225-228): three moves of whole elements.  With an odd nChan the memmove takes half an element more, which the
    memcpy after it overwrites. *)
Definition shift (a : Z) (m : mem (option Qc)) : mem (option Qc) :=
  let h := nChan / 2 + nChan mod 2 in
  let temp2 := fun x => m (a + x) in
  let m1 := fun x => if (a <=? x) && (x <? a + nChan / 2) then m (x + h) else m x in
  fun x => if (a + nChan / 2 <=? x) && (x <? a + nChan / 2 + h) then temp2 (x - (a + nChan / 2)) else m1 x.
(** The end, in bytes, of what that memmove reads for stand i. *)
Definition shift_reads_to (i : Z) : Z := 8 * (nChan * i + nChan / 2 + nChan mod 2) + 8 * nChan / 2.
(** blas_scal (blas.hpp 12-19) with 1/(L*nActFFT): for nActFFT = 0 the factor is infinite and 0 becomes NaN. *)
Definition scale (a nAct : Z) (m : mem (option Qc)) : mem (option Qc) :=
  loop 0 nChan (fun k m => put (a + k) (if nAct =? 0 then None else match m (a + k) with Some x => Some (x / (qz (L * nAct)))%Qc | None => None end) m) m.

(** One stand (spec.cpp 80-129 real, 184-232 complex; [shifted] tells them apart). *)
Definition spec_stand (shifted : bool) (data : Z -> C) (i : Z) (m : mem (option Qc)) : mem (option Qc) :=
  let '(m, nAct) := loop 0 nFFT (fun j s =>
    let b := clean data (nSamps * i) (start 0 i j) in
    (loop 0 nChan (fun k m => add (nChan * i + k) (factor b * abs2 (channel data (nSamps * i) (start 0 i j) k))%Qc m) (fst s),
     if b then snd s + 1 else snd s)) (m, 0) in
  scale (nChan * i) nAct (if shifted then shift (nChan * i) m else m).
Definition compute_spec (shifted : bool) (data : Z -> C) (order : list Z) : mem (option Qc) :=
  par order (spec_stand shifted data) (fun _ => Some 0%Qc).

(** ** Stokes spectra: one stand (stokes.cpp 83-162 real, 219-292 complex); nStand for the addresses *)
Definition stokes_stand (nStand : Z) (shifted : bool) (dataX dataY : Z -> C) (i : Z) (m : mem (option Qc)) : mem (option Qc) :=
  let a (p k : Z) := p * nChan * nStand + nChan * i + k in
  let '(m, nAct) := loop 0 nFFT (fun j s =>
    let b := clean dataX (nSamps * i) (start 0 i j) && clean dataY (nSamps * i) (start 0 i j) in
    let X := channel dataX (nSamps * i) (start 0 i j) in let Y := channel dataY (nSamps * i) (start 0 i j) in
    (loop 0 nChan (fun k m =>
       let m := add (a 0 k) (factor b * abs2 (X k))%Qc m in
       let m := add (a 0 k) (factor b * abs2 (Y k))%Qc m in
       let m := add (a 1 k) (factor b * abs2 (X k))%Qc m in
       let m := add (a 1 k) (- (factor b * abs2 (Y k)))%Qc m in
       let m := add (a 2 k) (qz 2 * factor b * fst (X k) * fst (Y k))%Qc m in
       let m := add (a 2 k) (qz 2 * factor b * snd (X k) * snd (Y k))%Qc m in
       let m := add (a 3 k) (qz 2 * factor b * snd (X k) * fst (Y k))%Qc m in
       add (a 3 k) (- (qz 2 * factor b * fst (X k) * snd (Y k)))%Qc m) (fst s),
     if b then snd s + 1 else snd s)) (m, 0) in
  loop 0 4 (fun p m => scale (a p 0) nAct (if shifted then shift (a p 0) m else m)) m.
Definition compute_stokes (nStand : Z) (shifted : bool) (dataX dataY : Z -> C) (order : list Z) : mem (option Qc) :=
  par order (stokes_stand nStand shifted dataX dataY) (fun _ => Some 0%Qc).

(** ** F engine (core.cpp 165-213 real, 277-325 complex): the transforms with the delays applied, and whether they are valid.
    [rot i k] is the phase rotator with its scaling. *)
Definition fengine_step (shifted : bool) (data : Z -> C) (fifo : Z -> Z) (rot : Z -> Z -> C) (ij : Z) (s : mem C * mem Z) : mem C * mem Z :=
  let i := ij / nFFT in let j := ij mod nFFT in
  let b := clean data (nSamps * i) (start (fifo i) i j) in
  let out := channel data (nSamps * i) (start (fifo i) i j) in
  let cell k := nChan * nFFT * i + nFFT * k + j in
  let set k x m := put (cell k) (cmul (cscale (factor b) x) (rot i k)) m in
  (if shifted
   then loop (nChan / 2) nChan (fun k => set k (out (k - nChan / 2))) (loop 0 (nChan / 2) (fun k => set k (out (k + nChan / 2 + nChan mod 2))) (fst s))
   else loop 0 nChan (fun k => set k (out k)) (fst s),
   put (nFFT * i + j) (if b then 1 else 0) (snd s)).
Definition compute_fengine (shifted : bool) (data : Z -> C) (fifo : Z -> Z) (rot : Z -> Z -> C) (order : list Z) : mem C * mem Z :=
  par order (fengine_step shifted data fifo rot) ((fun _ => c0), (fun _ => 0)).
End Kernel.

(** lround: to the nearest integer, halves away from zero. *)
Definition lround (x : Q) : Z := if Qle_bool 0 x then Qfloor (x + (1 # 2)) else - Qfloor (- x + (1 # 2)).
(** compute_delay_components (core.cpp 34-71, without USE_TRUE_MINIMUM_DELAY); [delay i j] of stand i and channel j. *)
Definition fifo_of (nChan : Z) (SampleRate : Qc) (delay : Z -> Z -> Qc) (i : Z) : Z := lround (this (delay i (Z.quot nChan 2) * SampleRate)%Qc).
Definition fifo_max (nStand : Z) (fifo : Z -> Z) : Z := loop 0 nStand (fun i m => if m <? fifo i then fifo i else m) 0.
Definition frac_of (nChan : Z) (SampleRate : Qc) (delay : Z -> Z -> Qc) (i j : Z) : Qc := (delay i j - qz (fifo_of nChan SampleRate delay i) / SampleRate)%Qc.
(** compute_phase_rotator (core.cpp 80-107): the product of the two exponentials is written as one of the sum of their arguments, in turns;
    [E x] is exp(2 pi i x), [norm] stands for 1/sqrt(norm). *)
Definition rotator (E : Qc -> C) (norm : Qc) (nChan : Z) (SampleRate : Qc) (ChanRef : Z) (freq : Z -> Qc) (delay : Z -> Z -> Qc) (i j : Z) : C :=
  cscale norm (E (freq j * frac_of nChan SampleRate delay i j + freq ChanRef / SampleRate * qz (fifo_of nChan SampleRate delay i))%Qc).

(** blas_dotc_sub (blas.hpp 28-45, 48-63) *)
Definition dotc (N : Z) (X Y : Z -> C) : C := loop 0 N (fun i acc => cadd acc (cmul (conj (X i)) (Y i))) c0.

(** ** X engines.  The mapper (core.cpp 767-773, stokes.cpp 636-642) *)
Definition mapper (nStand : Z) : list (Z * Z) := flat_map (fun s1 => map (fun s2 => (s1, s2)) (range s1 nStand)) (range 0 nStand).
Definition cdiv (x : C) (n : Z) : option C := if n =? 0 then None else Some ((fst x / qz n)%Qc, (snd x / qz n)%Qc).
Section XEngine.
Context (nStand nChan nFFT : Z).
(** nActVis; the valid flags are 0 or 1. *)
Definition act_vis (v1 v2 : mem Z) (s1 s2 : Z) : Z := loop 0 nFFT (fun f n => n + Z.land (v1 (s1 * nFFT + f)) (v2 (s2 * nFFT + f))) 0.
(** The products of the transforms of channel c of stand s1 of [d1] with those of stand s2 of [d2]. *)
Definition product (d1 d2 : mem C) (s1 s2 c : Z) : C :=
  dotc nFFT (fun f => d2 (s2 * nChan * nFFT + c * nFFT + f)) (fun f => d1 (s1 * nChan * nFFT + c * nFFT + f)).
(** XEngine2, one baseline (core.cpp 787-797) *)
Definition xengine2_step (d1 d2 : mem C) (v1 v2 : mem Z) (bl : Z) (m : mem (option C)) : mem (option C) :=
  let '(s1, s2) := znth (0, 0) bl (mapper nStand) in
  let nAct := act_vis v1 v2 s1 s2 in
  loop 0 nChan (fun c => put (bl * nChan + c) (cdiv (product d1 d2 s1 s2 c) nAct)) m.
Definition xengine2 (d1 d2 : mem C) (v1 v2 : mem Z) (order : list Z) : mem (option C) :=
  par order (xengine2_step d1 d2 v1 v2) (fun _ => Some c0).
(** XEngine3 of the Stokes module, one baseline (stokes.cpp 656-682); x / OutType(0,1) *)
Definition over_i (x : option C) : option C := option_map (fun z => (snd z, (- fst z)%Qc)) x.
Definition xengine3_step (dX dY : mem C) (vX vY : mem Z) (bl : Z) (m : mem (option C)) : mem (option C) :=
  let nBL := Z.quot ((nStand + 1) * nStand) 2 in
  let '(s1, s2) := znth (0, 0) bl (mapper nStand) in
  let nAct := act_vis vX vY s1 s2 in
  let a p c := p * nBL * nChan + bl * nChan + c in
  loop 0 nChan (fun c m =>
    let t1 := product dX dX s1 s2 c in let t2 := product dY dY s1 s2 c in
    let m := put (a 0 c) (cdiv (cadd t1 t2) nAct) m in
    let m := put (a 1 c) (cdiv (csub t1 t2) nAct) m in
    let t1 := product dX dY s1 s2 c in let t2 := product dY dX s2 s1 c in
    let m := put (a 2 c) (cdiv (cadd t1 t2) nAct) m in
    put (a 3 c) (over_i (cdiv (csub t1 t2) nAct)) m) m.
Definition xengine3 (dX dY : mem C) (vX vY : mem Z) (order : list Z) : mem (option C) :=
  par order (xengine3_step dX dY vX vY) (fun _ => Some c0).
End XEngine.
