(** Model of the w-projection gridder (lsl/imaging/gridder.cpp) and of build_gridded_image and ImgWPlus._gen_img (lsl/imaging/utils.py).
    Numbers are exact (the code works in double precision and keeps the planes in single precision). *)
From Coq Require Import String List ZArith QArith Qcanon Bool.
From Verif Require Import LibList M_Py M_Num M_Base M_Corr M_CorrPy.
Import ListNotations.
Open Scope Z_scope.

(** MAX_W_PLANES, GRID_KERNEL_SIZE, GRID_KERNEL_OVERSAMPLE (gridder.cpp 24-29) *)
Definition MAX_W_PLANES : Z := 1024.
Definition GRID_KERNEL_SIZE : Z := 7.
Definition GRID_KERNEL_OVERSAMPLE : Z := 64.

(** (long) x and (long) round(x) *)
Definition clong (x : Qc) : Z := py_int (this x).
Definition cround (x : Qc) : Z := lround (this x).
Definition qlt (x y : Qc) : bool := negb (Qle_bool y x).

(** One visibility: its (u,v,w), its datum and its weight. *)
Record sample := mkS { s_u : Qc; s_v : Qc; s_w : Qc; s_vis : C; s_wgt : C }.

Section Gridder.
(** signed_sqrt (31-37), the 1-D kernel (kaiser_bessel_1d_kernel_filler 40-58: 225 numbers), sqrt, E x = exp(2 pi i x) and the FFTW transforms,
    forward and backward, of an n by n plane. *)
Context (signed_sqrt : Qc -> Qc) (kernel1D : Z -> Qc) (root : Qc -> Qc) (E : Qc -> C) (forward backward : Z -> mem C -> mem C).

(** compute_planes (90-124).  The two arrays hold MAX_W_PLANES entries: [None] is an access outside an array (the read of w[0] when nothing was given,
    the write of entry 1024).  [before] is the word in front of planeStop, read by line 111 when the loop has closed no plane.
    State: the planes closed so far, the start of the open one and psw. *)
Definition plane_step (wRes : Qc) (w : list Qc) (i : Z) (s : option (list (Z * Z) * Z * Qc)) : option (list (Z * Z) * Z * Qc) :=
  match s with
  | None => None
  | Some (closed, first, psw) =>
      let csw := signed_sqrt (znth 0%Qc i w) in
      if Qle_bool (psw + wRes)%Qc csw then
        if zlen closed + 1 <? MAX_W_PLANES then Some (closed ++ [(first, i)], i, csw) else None
      else Some (closed, first, psw)
  end.
Definition compute_planes (before : Z) (wRes : Qc) (w : list Qc) : option (list (Z * Z)) :=
  match w with
  | [] => None
  | w0 :: _ =>
      match loop 1 (zlen w) (plane_step wRes w) (Some ([], 0, signed_sqrt w0)) with
      | None => None
      | Some (closed, first, _) =>
          let last := match closed with [] => before | _ => snd (znth (0, 0) (zlen closed - 1) closed) end in
          Some (if last <? zlen w then closed ++ [(first, zlen w)] else closed)
      end
  end.

(** The gridding of a plane (251-303): the cells touched by the coordinate ci or cj, and the accumulation.  suv and sbm are filled by the same loops;
    [value] selects the datum or the weight.  [None] is an access outside kernel1D or outside the plane. *)
Definition coord (nPixSide : Z) (x : Qc) : Qc := if qlt x 0%Qc then (x + qz nPixSide)%Qc else x.
Definition cell (nPixSide : Z) (c : Qc) (m : Z) : Z :=
  let p := cround c + m in
  if p <? 0 then p + nPixSide else if nPixSide <=? p then p - nPixSide else p.
Definition kernel_at (c : Qc) (m : Z) : option Qc :=
  let g := clong ((c - qz (cround c + m)) * qz GRID_KERNEL_OVERSAMPLE)%Qc in
  let g := if g <? 0 then - g else g in
  if g <? GRID_KERNEL_SIZE * GRID_KERNEL_OVERSAMPLE / 2 + 1 then Some (kernel1D g) else None.
Definition half_window : Z * Z := (Z.quot (- GRID_KERNEL_SIZE) 2, Z.quot GRID_KERNEL_SIZE 2 + 1).
Definition grid_cell (nPixSide : Z) (ci cj : Qc) (value : C) (m l : Z) (s : option (mem C)) : option (mem C) :=
  match s, kernel_at ci m, kernel_at cj l with
  | Some g, Some temp, Some k =>
      let a := nPixSide * cell nPixSide ci m + cell nPixSide cj l in
      if (0 <=? a) && (a <? nPixSide * nPixSide) then Some (put a (cadd (g a) (cscale (temp * k)%Qc value)) g) else None
  | _, _, _ => None
  end.
Definition grid_sample (nPixSide : Z) (uvRes : Qc) (value : sample -> C) (x : sample) (s : option (mem C)) : option (mem C) :=
  let ci := coord nPixSide (s_v x / - uvRes)%Qc in
  let cj := coord nPixSide (s_u x / uvRes)%Qc in
  loop (fst half_window) (snd half_window) (fun m s => loop (fst half_window) (snd half_window) (fun l s => grid_cell nPixSide ci cj (value x) m l s) s) s.
Definition sub_grid (nPixSide : Z) (uvRes : Qc) (value : sample -> C) (xs : list sample) : option (mem C) :=
  fold_left (fun s x => grid_sample nPixSide uvRes value x s) xs (Some (fun _ => c0)).

(** w_projection_kernel (61-87): the factor at row i, column j.  (Line 79 takes nPixSide - l where line 70 takes m - nPixSide; both are squared.) *)
Definition w_kernel (nPixSide : Z) (uvRes w : Qc) (i j : Z) : C :=
  let m := if nPixSide / 2 <? i then i - nPixSide else i in
  let l := if nPixSide / 2 <? j then nPixSide - j else j in
  let cM := (qz m / qz nPixSide / uvRes)%Qc in
  let cL := (qz l / qz nPixSide / uvRes)%Qc in
  if qlt (cL * cL + cM * cM)%Qc 1%Qc then E (- (w * (root (1 - cL * cL - cM * cM) - 1)))%Qc else c0.

(** One plane (244-325): gridding, the mean of w, and the projection.  [norm] is the factor of line 217. *)
Definition w_mean (xs : list sample) : Qc := (fold_left (fun s x => s + s_w x)%Qc xs 0%Qc / qz (zlen xs))%Qc.
Definition project (nPixSide : Z) (uvRes norm w : Qc) (g : mem C) : mem C :=
  backward nPixSide (fun i => cmul (forward nPixSide g i) (cscale norm (w_kernel nPixSide uvRes w (i / nPixSide) (i mod nPixSide)))).
Definition plane (nPixSide : Z) (uvRes norm : Qc) (value : sample -> C) (xs : list sample) : option (mem C) :=
  option_map (project nPixSide uvRes norm (w_mean xs)) (sub_grid nPixSide uvRes value xs).

(** norm is static: its initializer runs at the first call only.  [first]: the nPixSide of that call, [None] before it (217). *)
Definition static_norm (first : option Z) (nPixSide : Z) : Qc := match first with None => (1 / (qz nPixSide * qz nPixSide))%Qc | Some n => (1 / (qz n * qz n))%Qc end.

(** compute_gridding (179-356): the planes are taken in the order [order] of the OpenMP schedule.  (An access outside an array in any of them spoils the call.) *)
Definition compute_gridding (first : option Z) (before : Z) (nPixSide : Z) (uvRes wRes : Qc) (order : list Z) (xs : list sample) : option (mem C * mem C) :=
  match compute_planes before wRes (map s_w xs) with
  | None => None
  | Some planes =>
      fold_left (fun s j =>
          let '(start, stop) := znth (0, 0) j planes in
          let sec := ztake (stop - start) (zdrop start xs) in
          match s, plane nPixSide uvRes (static_norm first nPixSide) s_vis sec, plane nPixSide uvRes (static_norm first nPixSide) s_wgt sec with
          | Some (uv, bm), Some suv, Some sbm => Some (fun i => cadd (uv i) (suv i), fun i => cadd (bm i) (sbm i))
          | _, _, _ => None
          end) order (Some (fun _ => c0, fun _ => c0))
  end.
Definition n_planes (before : Z) (wRes : Qc) (xs : list sample) : Z := match compute_planes before wRes (map s_w xs) with None => 0 | Some p => zlen p end.

(** WProjection (359-467): the side of the plane; arrays of the same length are assumed (otherwise RuntimeError, 404-409). *)
Definition pix_side (uvSize uvRes : Qc) : Z := cround (uvSize / uvRes)%Qc.
End Gridder.

(** ImgWPlus: the planes and the kernel correction (aipy.img.ImgW keeps the rest). *)
Record img := mkImg { i_uv : list (option C); i_bm : list (list (option C)) }.

(** ImgWPlus._gen_img (utils.py 1431-1494) up to the inverse transform: the state of the object afterwards and the array handed to the transform.
    A cell is [None] when it is not finite.  [which] says which array of the object was passed: -1 is self.uv, k is self.bm[k]; the array is
    passed by reference and `data *= ...' and `data[...] = 0.0' write to it; wgt = self.bm[0].real is a view of self.bm[0].
    [robust] is 10**(-2*robust); [taper] is the product of the tapers, a new array, [None] when neither is asked for. *)
Definition array_of (which : Z) (im : img) : list (option C) := if which <? 0 then i_uv im else znth [] which (i_bm im).
Definition set_array (which : Z) (a : list (option C)) (im : img) : img :=
  if which <? 0 then mkImg a (i_bm im) else mkImg (i_uv im) (map (fun kb => if fst kb =? which then a else snd kb) (combine (range 0 (zlen (i_bm im))) (i_bm im))).
Definition wgt_of (im : img) : list (option Qc) := map (option_map fst) (znth [] 0 (i_bm im)).
Definition times (f : option Qc) (x : option C) : option C := match f, x with Some f, Some x => Some (cscale f x) | _, _ => None end.
Definition recip (x : option Qc) : option Qc := match x with Some x => if Qc_eq_bool x 0 then None else Some (/ x)%Qc | None => None end.
Definition is_zero (x : option Qc) : bool := match x with Some x => Qc_eq_bool x 0 | None => false end.
Definition zero_where (w : list (option Qc)) (a : list (option C)) : list (option C) :=
  map (fun p => if is_zero (fst p) then Some c0 else snd p) (combine w a).
Definition multiply (f : list (option Qc)) (a : list (option C)) : list (option C) := map (fun p => times (fst p) (snd p)) (combine f a).
Definition osum (l : list (option Qc)) : option Qc := fold_left (fun s x => match s, x with Some s, Some x => Some (s + x)%Qc | _, _ => None end) l (Some 0%Qc).
Definition briggs_factor (robust : Qc) (w : list (option Qc)) : list (option Qc) :=
  let S2 := match osum w, osum (map (option_map (fun x => x * x)%Qc) w) with
            | Some wavg, Some w2avg => if Qc_eq_bool wavg 0 || Qc_eq_bool w2avg 0 then None else Some (qz 25 * robust / (w2avg / wavg))%Qc
            | _, _ => None
            end in
  map (fun x => match x, S2 with Some x, Some s => recip (Some (1 + x * s)%Qc) | _, _ => None end) w.
Definition reweigh (which : Z) (f : list (option Qc)) (im : img) : img :=
  let im := set_array which (multiply f (array_of which im)) im in
  set_array which (zero_where (wgt_of im) (array_of which im)) im.
Definition gen_img (which : Z) (weighting : string) (robust : Qc) (taper : option (list Qc)) (im : img) : img * res (list (option C)) :=
  if negb (existsb (String.eqb weighting) ["natural"; "uniform"; "briggs"]%string) then (im, Raise ValueError) else
  let im := if (weighting =? "natural")%string then im
            else if (weighting =? "uniform")%string then reweigh which (map recip (wgt_of im)) im
            else reweigh which (briggs_factor robust (wgt_of im)) im in
  let data := array_of which im in
  (im, Ok (match taper with None => data | Some t => multiply (map Some t) data end)).
(** image and bm_image with a term (1496-1530) *)
Definition image (weighting : string) (robust : Qc) (taper : option (list Qc)) (im : img) : img * res (list (option C)) := gen_img (-1) weighting robust taper im.
Definition bm_image (term : Z) (weighting : string) (robust : Qc) (taper : option (list Qc)) (im : img) : img * res (list (option C)) := gen_img term weighting robust taper im.

(** build_gridded_image (1625-1707) for data sets and for a collection of them.  A data set: for each polarization its samples (of the channels asked for) with
    their masks.  [project] stands for append_hermitian, the sorting by w and WProjection: what it makes of a list of samples.  The size, resolution and w resolution of an
    object passed as [im] are those asked for (otherwise ValueError, 1658-1663). *)
Record dset := mkD { d_pols : list (string * list (sample * bool)); d_mjd : Qc }.
Record gimg := mkG { g_img : img; g_mjd : option Qc }.
Section Build.
Context (project : list sample -> res img) (empty : img).
Definition build_one (pol : string) (im : option gimg) (d : dset) : res gimg :=
  let im := match im with None => mkG empty None | Some im => im end in
  match find (fun p => (fst p =? pol)%string) (d_pols d) with
  | None => Raise RuntimeError
  | Some (_, xs) => bind (project (map fst xs)) (fun g => Ok (mkG g (Some (d_mjd d))))
  end.
Definition build_all (pol : string) (im : option gimg) (ds : list dset) : res (option gimg) :=
  fold_left (fun r d => bind r (fun im => bind (build_one pol im d) (fun g => Ok (Some g)))) ds (Ok im).
End Build.
