(** Model of lsl/imaging/analysis.py: find_point_sources (106-280) from the convolved image on.
    Simplifications: exact rational numbers; an image is its shape and a function of the pixel; the convolved image and the
    cross-section of the kernel are parameters.  A division by zero, which gives nan or inf in the code, is 0 here. *)
From Coq Require Import List ZArith Bool QArith.
From Verif Require Import M_Py.
Import ListNotations.
Open Scope Z_scope.

Definition upto (n : Z) : list Z := map Z.of_nat (seq 0 (Z.to_nat n)).
(** row (166): the offsets -nHalf..nHalf of the detection box. *)
Definition row (h : Z) : list Z := map (fun k => k - h) (upto (2 * h + 1)).
(** The mask without its center (169, 195-198), as the list of its offsets. *)
Definition offsets (h : Z) (radius2 : Q) : list (Z * Z) :=
  filter (fun '(a, b) => Qle_bool (inject_Z (a * a + b * b)) radius2 && negb ((a =? 0) && (b =? 0))) (list_prod (row h) (row h)).
(** An index into an axis of [n] pixels: negative ones count from the end. *)
Definition pyidx (n i : Z) : option Z := if (0 <=? i) && (i <? n) then Some i else if (- n <=? i) && (i <? 0) then Some (i + n) else None.

Section Find.
  Variable R C h : Z.
  Variable radius2 : Q.
  Variable conv : Z -> Z -> Q.
  Definition pixels : list (Z * Z) := list_prod (upto R) (upto C).
  (** The interior convImage[nHalf:-nHalf, nHalf:-nHalf] (187). *)
  Definition inner (p : Z * Z) : bool := let '(i, j) := p in (h <=? i) && (i <? R - h) && (h <=? j) && (j <? C - h).
  Definition at_pixel (p : Z * Z) : Q := conv (fst p) (snd p).
  Definition qmin (l : list Q) (d : Q) : Q := fold_left (fun m x => if Qle_bool m x then m else x) l d.
  (** minConvValue (187). *)
  Definition min_conv : res Q := match map at_pixel (filter inner pixels) with [] => Raise ValueError | x :: r => Ok (qmin r x) end.
  (** The image with its edges cleaned out (188-191). *)
  Definition cleaned (m : Q) (p : Z * Z) : Q := if inner p then at_pixel p else m.
  Definition look (m : Q) (i j : Z) : option Q := match pyidx R i, pyidx C j with Some i, Some j => Some (cleaned m (i, j)) | _, _ => None end.
  (** One pass of the de-duplication (204-207). *)
  Definition pass (m : Q) (o : Z * Z) (l : list (Z * Z)) : res (list (Z * Z)) :=
    let near p := look m (fst p + fst o) (snd p + snd o) in
    if existsb (fun p => match near p with None => true | _ => false end) l then Raise IndexError
    else Ok (filter (fun p => match near p with Some v => Qle_bool v (cleaned m p) | None => false end) l).
  Fixpoint passes (m : Q) (os : list (Z * Z)) (l : list (Z * Z)) : res (list (Z * Z)) :=
    match os with [] => Ok l | o :: r => bind (pass m o l) (passes m r) end.
  (** The detections (186-208). *)
  Definition detect (threshold : Q) : res (list (Z * Z)) :=
    bind min_conv (fun m => passes m (offsets h radius2) (filter (fun p => Qle_bool threshold (cleaned m p)) pixels)).

  Variable image : Z -> Z -> Q.
  Variable c1 : Z -> Q.
  Definition qsum (l : list Q) : Q := fold_right Qplus 0%Q l.
  (** A sum over the box around a pixel (229). *)
  Definition over_box (p : Z * Z) (f : Z -> Z -> Q -> Q) : Q :=
    qsum (map (fun a => qsum (map (fun b => f a b (image (fst p + a) (snd p + b))) (row h))) (row h)).
  Record source := mkSource { s_x : Q; s_y : Q; s_flux : Q; s_sharp : Q; s_round : Q }.
  (** The statistics of a detection (229-248) and whether it is kept.  In meshgrid(row, row) rx goes along the second axis. *)
  Definition sharpness (p : Z * Z) : Q :=
    ((image (fst p) (snd p) - qsum (map (fun o => image (fst p + fst o)%Z (snd p + snd o)%Z) (offsets h radius2)) / inject_Z (Z.of_nat (length (offsets h radius2)))) / image (fst p) (snd p))%Q.
  Definition dx (p : Z * Z) : Q := over_box p (fun a _ v => v * c1 a)%Q.
  Definition dy (p : Z * Z) : Q := over_box p (fun _ b v => v * c1 b)%Q.
  Definition roundness (p : Z * Z) : Q := ((dx p - dy p) / (dx p + dy p))%Q.
  Definition xcen (p : Z * Z) : Q := (inject_Z (fst p) + over_box p (fun a b v => v * inject_Z b) / over_box p (fun _ _ v => v))%Q.
  Definition ycen (p : Z * Z) : Q := (inject_Z (snd p) + over_box p (fun a b v => v * inject_Z a) / over_box p (fun _ _ v => v))%Q.
  Definition qlt (a b : Q) : bool := negb (Qle_bool b a).
  Definition kept (s_lo s_hi r_lo r_hi : Q) (p : Z * Z) : bool :=
    negb (qlt (sharpness p) s_lo || qlt s_hi (sharpness p)) &&
    negb ((Qle_bool (dx p) 0 || Qle_bool (dy p) 0) || (qlt (roundness p) r_lo || qlt r_hi (roundness p))).
  (** The loop over the detections and the trimming of the output (221-280). *)
  Fixpoint collect (s_lo s_hi r_lo r_hi : Q) (l : list (Z * Z)) : list source :=
    match l with
    | [] => []
    | p :: r => if kept s_lo s_hi r_lo r_hi p then mkSource (xcen p) (ycen p) (image (fst p) (snd p)) (sharpness p) (roundness p) :: collect s_lo s_hi r_lo r_hi r
                else collect s_lo s_hi r_lo r_hi r
    end.
  Definition find_sources (threshold s_lo s_hi r_lo r_hi : Q) : res (list source) :=
    bind (detect threshold) (fun l => Ok (collect s_lo s_hi r_lo r_hi l)).
End Find.
