(** Specification vocabulary for C139, C140. *)
From Coq Require Import List ZArith Bool QArith.
Import ListNotations.
Open Scope Z_scope.

(** A pixel far enough from the edges of an image of R by C pixels. *)
Definition inside (R C h i j : Z) : Prop := h <= i < R - h /\ h <= j < C - h.
(** Another pixel of the detection area around (i, j). *)
Definition near (h : Z) (radius2 : Q) (i j i' j' : Z) : Prop :=
  (i', j') <> (i, j) /\ Z.abs (i' - i) <= h /\ Z.abs (j' - j) <= h /\ (inject_Z ((i' - i) * (i' - i) + (j' - j) * (j' - j)) <= radius2)%Q.
(** A source: above the threshold and nowhere exceeded in the detection area. *)
Definition peak (R C h : Z) (radius2 : Q) (conv : Z -> Z -> Q) (threshold : Q) (i j : Z) : Prop :=
  inside R C h i j /\ (threshold <= conv i j)%Q /\ forall i' j', inside R C h i' j' -> near h radius2 i j i' j' -> (conv i' j' <= conv i j)%Q.
(** The sum of f a from a = -h to h. *)
Fixpoint sum_from (a : Z) (n : nat) (f : Z -> Q) : Q := match n with O => 0 | S n => f a + sum_from (a + 1) n f end.
Definition box_sum (h : Z) (f : Z -> Z -> Q) : Q := sum_from (- h) (Z.to_nat (2 * h + 1)) (fun a => sum_from (- h) (Z.to_nat (2 * h + 1)) (fun b => f a b)).
(** The intensity-weighted center of the box around (i, j): the first coordinate is along the first axis of the image. *)
Definition center (h : Z) (image : Z -> Z -> Q) (i j : Z) (x y : Q) : Prop :=
  let S := box_sum h (fun a b => image (i + a) (j + b)) in
  (x == inject_Z i + box_sum h (fun a b => image (i + a)%Z (j + b)%Z * inject_Z a) / S /\ y == inject_Z j + box_sum h (fun a b => image (i + a)%Z (j + b)%Z * inject_Z b) / S)%Q.
(** Whether an offset belongs to the detection area. *)
Definition in_area (radius2 : Q) (a b : Z) : bool := Qle_bool (inject_Z (a * a + b * b)) radius2 && negb ((a =? 0) && (b =? 0)).
(** How much a peak exceeds the mean of its detection area, as a part of the peak. *)
Definition sharp_of (h : Z) (radius2 : Q) (image : Z -> Z -> Q) (i j : Z) : Q :=
  ((image i j - box_sum h (fun a b => if in_area radius2 a b then image (i + a)%Z (j + b)%Z else 0) / box_sum h (fun a b => if in_area radius2 a b then 1 else 0)) / image i j)%Q.
(** How much of the box follows the cross-section of the kernel along the first and along the second axis. *)
Definition along_x (h : Z) (image : Z -> Z -> Q) (c1 : Z -> Q) (i j : Z) : Q := box_sum h (fun a b => image (i + a)%Z (j + b)%Z * c1 a)%Q.
Definition along_y (h : Z) (image : Z -> Z -> Q) (c1 : Z -> Q) (i j : Z) : Q := box_sum h (fun a b => image (i + a)%Z (j + b)%Z * c1 b)%Q.
Definition round_of (h : Z) (image : Z -> Z -> Q) (c1 : Z -> Q) (i j : Z) : Q :=
  ((along_x h image c1 i j - along_y h image c1 i j) / (along_x h image c1 i j + along_y h image c1 i j))%Q.
Definition acceptable (h : Z) (radius2 : Q) (image : Z -> Z -> Q) (c1 : Z -> Q) (s_lo s_hi r_lo r_hi : Q) (i j : Z) : Prop :=
  (s_lo <= sharp_of h radius2 image i j <= s_hi /\ 0 < along_x h image c1 i j /\ 0 < along_y h image c1 i j /\ r_lo <= round_of h image c1 i j <= r_hi)%Q.
(** The image of the examples: 9 by 9 pixels, a peak at (4, 4) with a shoulder at (4, 5). *)
Definition ex_image (i j : Z) : Q := if (i =? 4) && (j =? 4) then 10%Q else if (i =? 4) && (j =? 5) then 5%Q else 0%Q.
Definition ex_c1 (a : Z) : Q := if a =? 0 then (1 # 2)%Q else if Z.abs a =? 1 then (1 # 5)%Q else (1 # 20)%Q.
