(** What deconvolving an image means: sums over its cells, its brightest cell, the parts removed one after the other. *)
From Coq Require Import List ZArith QArith Qcanon.
From Verif Require Import S_Corr.
Import ListNotations.
Open Scope Z_scope.

Notation cell := (Z * Z)%type.
Notation picture := (Z * Z -> Qc).
Definition square (x : Qc) : Qc := (x * x)%Qc.
Definition inside (H W : Z) (c : cell) : Prop := 0 <= fst c < H /\ 0 <= snd c < W.
Definition sum_over (H W : Z) (a : picture) : Qc := total (map (fun x => total (map (fun y => a (x, y)) (upto 0 W))) (upto 0 H)).
Definition mean_over (H W : Z) (a : picture) : Qc := (sum_over H W a / num (H * W))%Qc.
Definition variance (H W : Z) (a : picture) : Qc := mean_over H W (fun c => square (a c - mean_over H W a)%Qc).
(** Reading order *)
Definition before (c d : cell) : Prop := fst c < fst d \/ fst c = fst d /\ snd c < snd d.
(** The first of the cells with the greatest value *)
Definition first_greatest (H W : Z) (a : picture) (p : cell) : Prop :=
  inside H W p /\ forall d, inside H W d -> (a d <= a p)%Qc /\ (before d p -> (a d < a p)%Qc).
(** Less than two standard deviations from the mean *)
Definition quiet (H W : Z) (a : picture) (p : cell) : Prop := (square (a p - mean_over H W a) < num 4 * variance H W a)%Qc.
(** The beam moved, around the edges, so that its middle lies on p *)
Definition centred (H W : Z) (beam : picture) (p d : cell) : Qc := beam ((fst d - fst p + H / 2) mod H, (snd d - snd p + W / 2) mod W).

Section Cycle.
Context (H W : Z) (gain : Qc) (beam img : picture).
(** [cleaning comps r]: taking the components comps, one after the other, from the image leaves r.  Each is the share [gain] of the cell of greatest size. *)
Inductive cleaning : list (cell * Qc) -> picture -> Prop :=
| cleaning_start : forall r, (forall d, inside H W d -> r d = img d) -> cleaning [] r
| cleaning_next : forall comps r p r', cleaning comps r -> first_greatest H W (fun c => square (r c)) p -> ~ quiet H W r p ->
    (forall d, inside H W d -> r' d = (r d - gain * r p * centred H W beam p d)%Qc) -> cleaning (comps ++ [(p, gain * r p)%Qc]) r'.
End Cycle.
(** The flux put in the cell d: each component with all the flux of its beam *)
Definition flux_in (H W : Z) (beam : picture) (comps : list (cell * Qc)) (d : cell) : Qc :=
  total (map (fun k => (snd k * sum_over H W beam)%Qc) (filter (fun k => (fst (fst k) =? fst d) && (snd (fst k) =? snd d))%bool comps)).

(** The share of a point at x that falls on the cell k: the overlap of a cell around x with the cell k *)
Definition tent (t : Qc) : Qc := if Qclt_le_dec t 0 then (if Qclt_le_dec (1 + t) 0 then 0 else 1 + t)%Qc else (if Qclt_le_dec (1 - t) 0 then 0 else 1 - t)%Qc.
Definition overlap (x y : Qc) (d : cell) : Qc := (tent (num (fst d) - x) * tent (num (snd d) - y))%Qc.
(** The value of the picture at a place between cells *)
Definition bilinear (H W : Z) (a : picture) (x y : Qc) : Qc := sum_over H W (fun d => (a d * overlap x y d)%Qc).
Definition between_cells (H W : Z) (x y : Qc) : Prop := (0 <= x)%Qc /\ (x < num (H - 1))%Qc /\ (0 <= y)%Qc /\ (y < num (W - 1))%Qc.

Section Clean.
Context (H W : Z) (gain : Qc) (response : Qc -> Qc -> picture) (ra dec img : picture).
(** [subtracting comps r]: comps are points (flux, x, y); the response of the array to each, in the direction of its place, has been taken from the image.
    Each flux is the share [gain] of the brightest cell. *)
Inductive subtracting : list (Qc * Qc * Qc) -> picture -> Prop :=
| subtracting_start : forall r, (forall d, inside H W d -> r d = img d) -> subtracting [] r
| subtracting_next : forall comps r p x y r', subtracting comps r -> first_greatest H W r p -> (0 <= r p)%Qc -> between_cells H W x y ->
    (forall d, inside H W d -> r' d = (r d - gain * r p * response (bilinear H W ra x y) (bilinear H W dec x y) d)%Qc) -> subtracting (comps ++ [(gain * r p, x, y)%Qc]) r'.
End Clean.
Definition placed (comps : list (Qc * Qc * Qc)) (d : cell) : Qc := total (map (fun k => (fst (fst k) * overlap (snd (fst k)) (snd k) d)%Qc) comps).
(** m is the greatest value of a among the cells with P *)
Definition greatest (P : cell -> Prop) (a : picture) (m : Qc) : Prop := (exists c, P c /\ a c = m) /\ forall c, P c -> (a c <= m)%Qc.
Definition listed (H W : Z) (a : picture) : list Qc := concat (map (fun x => map (fun y => a (x, y)) (upto 0 W)) (upto 0 H)).

(** The level the fit starts from: the greatest value of the image, at least zero, where there is sky. *)
Definition level (mask : cell -> bool) (m modelToSim : Qc) : picture := fun c => ((if mask c then 0 else if Qclt_le_dec m 0 then 0 else m) * modelToSim)%Qc.
Section LeastSquares.
(** The successive models of a least squares fit: [sim m] is the image simulated for the model m, [tidy] what is done to the residuals before they are put back,
    [dev] the standard deviation, [m0] the first model, [first] the deviation the first one is compared with. *)
Context (H W : Z) (sim tidy : picture -> picture) (dev : list Qc -> Qc) (img m0 : picture) (gain scale first rtol : Qc).
Definition without_negative (a : picture) : picture := fun c => if Qle_bool (a c) 0 then 0%Qc else a c.
Fixpoint model (k : nat) : picture :=
  match k with O => m0 | S k => without_negative (fun c => model k c + tidy (fun c => (img c - sim (model k) c)%Qc) c * scale * gain)%Qc end.
Definition residual (k : nat) : picture := tidy (fun c => (img c - sim (model k) c)%Qc).
Definition rms (k : nat) : Qc := dev (listed H W (fun c => (img c - sim (model k) c)%Qc)).
Definition rms_before (k : nat) : Qc := match k with O => first | S k => rms k end.
(** a turn after which the fit goes on *)
Definition improves (k : nat) : Prop := (rms k <= rms_before k)%Qc /\ (rtol <= rms_before k - rms k)%Qc.
Definition worsens (k : nat) : Prop := (rms_before k < rms k)%Qc.
Definition settles (k : nat) : Prop := (rms k <= rms_before k)%Qc /\ (rms_before k - rms k < rtol)%Qc.
End LeastSquares.
