(** What downsampling, linear interpolation and smoothing are, independent of the model. *)
From Coq Require Import String List ZArith QArith Qcanon Bool.
From Verif Require Import LibList S_Corr.
Import ListNotations.
Open Scope Z_scope.

(** The i-th run of k consecutive numbers. *)
Definition run (k i : Z) (l : list Qc) : list Qc := ztake k (zdrop (k * i) l).
Definition at_ (l : list Qc) (i : Z) : Qc := znth 0%Qc i l.
Definition increasing (x : list Qc) : Prop := forall i j, 0 <= i < j -> j < zlen x -> (at_ x i < at_ x j)%Qc.
(** (v, r) lies on one of the points or on the line between two neighbouring ones. *)
Definition joined (x y : list Qc) (v r : Qc) : Prop :=
  (exists k, 0 <= k < zlen x /\ v = at_ x k /\ r = at_ y k) \/
  (exists k, 0 <= k < zlen x - 1 /\ (at_ x k < v)%Qc /\ (v < at_ x (k + 1))%Qc /\
     ((r - at_ y k) * (at_ x (k + 1) - at_ x k) = (at_ y (k + 1) - at_ y k) * (v - at_ x k))%Qc).
(** The mean of v(i + h), v(i + h - 1), ... with the weights w, h half the number of weights (less one, rounded down). *)
Definition weighted_mean (w : list Qc) (v : Z -> Qc) (i : Z) : Qc :=
  (total (map (fun j => at_ w j * v (i + (zlen w - 1) / 2 - j)%Z) (upto 0 (zlen w))) / total w)%Qc.
(** The signal with its ends reflected as smooth() does it: before the start through the first point, leaving out x[1]; after the end
    through the last point, starting with it. *)
Definition reflected (x : list Qc) (i : Z) : Qc :=
  if i <? 0 then (num 2 * at_ x 0 - at_ x (1 - i))%Qc
  else if i <? zlen x then at_ x i
  else (num 2 * at_ x (zlen x - 1) - at_ x (2 * zlen x - 1 - i))%Qc.
(** The weights: all the same for "flat", otherwise numpy's. *)
Definition weights (windows : string -> Z -> list Qc) (window : string) (n : Z) : list Qc :=
  if String.eqb window "flat" then repeat 1%Qc (Z.to_nat n) else windows window n.
