(** Specification vocabulary for the gridding of visibilities and the images made from them. *)
From Coq Require Import List ZArith QArith Qround Qcanon Qabs Bool.
From Verif Require Import LibList S_Corr.
Import ListNotations.
Open Scope Z_scope.

(** The elements number a, ..., b-1 of a list. *)
Definition piece {A} (l : list A) (ab : Z * Z) : list A := ztake (snd ab - fst ab) (zdrop (fst ab) l).
(** A run whose keys all lie within [step] above the key of its first element. *)
Definition within (step : Qc) (run : list Qc) : Prop := match run with [] => False | x :: _ => forall y, In y run -> (x <= y)%Qc /\ (y < x + step)%Qc end.
Definition ascending (l : list Qc) : Prop := forall i j, 0 <= i <= j -> j < zlen l -> (znth 0%Qc i l <= znth 0%Qc j l)%Qc.

(** A datum at the real position x is spread over the seven integers nearest to x, with a weight given by the distance in 64ths; on a ring of N cells
    integer p is cell p mod N. *)
Section Spread.
Context (K : Z -> Qc) (N : Z).
Definition around (x : Qc) : list Z := upto (nearest x - 3) (nearest x + 4).
Definition weight_at (x : Qc) (p : Z) : Qc := K (Qfloor (64 * Qabs (this x - inject_Z p))).
Definition share (x : Qc) (a : Z) : Qc := total (map (fun p => if p mod N =? a then weight_at x p else 0%Qc) (around x)).
Definition whole (x : Qc) : Qc := total (map (weight_at x) (around x)).
Definition times_real (a : Qc) (z : complex) : complex := ((a * fst z)%Qc, (a * snd z)%Qc).
(** Cell (a, b) of the plane made of data z at column position x and row position y. *)
Definition plane_cell (data : list (Qc * Qc * complex)) (a b : Z) : complex :=
  total_c (map (fun d => let '(x, y, z) := d in times_real (share y a * share x b)%Qc z) data).
End Spread.

(** The projection of a plane: transform, multiply by the w term (zero beyond the horizon), transform back. *)
Section Projection.
Context (root : Qc -> Qc) (E : Qc -> complex) (N : Z) (res : Qc).
(** The direction cosine of transform bin k. *)
Definition cosine (k : Z) : Qc := (num (if 2 * k <=? N then k else k - N) / (num N * res))%Qc.
Definition w_term (w : Qc) (a b : Z) : complex :=
  let r := (cosine a * cosine a + cosine b * cosine b)%Qc in
  if Qle_bool 1 (this r) then (0%Qc, 0%Qc) else E (w * (1 - root (1 - r)))%Qc.
End Projection.

(** The planes of data (position, w, datum) projected and scaled: [forward] and [backward] are the two transforms of an N by N plane kept row by row. *)
Section Projected.
Context (K : Z -> Qc) (root : Qc -> Qc) (E : Qc -> complex) (forward backward : (Z -> complex) -> Z -> complex) (N : Z) (res : Qc).
Definition mean_of (l : list Qc) : Qc := (total l / num (zlen l))%Qc.
Definition projected (scale : Qc) (data : list (Qc * Qc * complex)) (w : list Qc) : Z -> complex :=
  backward (fun i => c_times (forward (fun i => plane_cell K N data (i / N) (i mod N)) i) (times_real scale (w_term root E N res (mean_of w) (i / N) (i mod N)))).
End Projected.

(** Weighted cells: datum z with gridded weight w. *)
Definition over (w : Qc) (z : complex) : complex := ((fst z / w)%Qc, (snd z / w)%Qc).
Definition uniform_cell (wz : Qc * complex) : complex := if Qc_eq_bool (fst wz) 0 then (0%Qc, 0%Qc) else over (fst wz) (snd wz).
Definition briggs_cell (s : Qc) (wz : Qc * complex) : complex := if Qc_eq_bool (fst wz) 0 then (0%Qc, 0%Qc) else over (1 + fst wz * s)%Qc (snd wz).
Definition sum_sq (l : list Qc) : Qc := total (map (fun x => x * x)%Qc l).
