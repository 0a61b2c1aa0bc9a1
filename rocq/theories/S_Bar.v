(** What is assumed of double precision, and what a bar should look like. *)
From Coq Require Import List ZArith Bool QArith Qround Qabs.
From Verif Require Import M_Str M_Bar.
Import ListNotations.
Open Scope Q_scope.

(** [F] is the set of doubles and [rnd] rounds to a nearest one: monotone, never further away than another double.
    Integers up to 2^53 are doubles, so is the fractional part of a double; the largest double below 1 is 1 - 2^-53. *)
Record doubles (F : Q -> Prop) (rnd : Q -> Q) : Prop := {
  d_mono : forall x y, x <= y -> rnd x <= rnd y;
  d_in : forall x, F (rnd x);
  d_near : forall x y, F y -> Qabs (rnd x - x) <= Qabs (y - x);
  d_int : forall z, (0 <= z <= 2 ^ 53)%Z -> F (inject_Z z);
  d_frac : forall x, F x -> 0 <= x -> F (x - inject_Z (Qfloor x));
  d_gap : forall x, F x -> x < 1 -> x <= 1 - (1 # 2 ^ 53);
  d_five : F (5 - (1 # 2 ^ 50)) }.

(** A bar: full marks, then (unless it is complete) one rotating mark, then blanks. *)
Definition bar_of (sym : Z) (w : Z) (s : str) : Prop :=
  s = repeat sym (Z.to_nat w) \/
  exists full k, (0 <= full < w)%Z /\ In k [45; 92; 124; 47; sym]%Z /\ s = repeat sym (Z.to_nat full) ++ k :: repeat 32%Z (Z.to_nat (w - full - 1)).

(** The stages of a bar of [w] places: five for each place ('-', '\', '|', '/' and the symbol itself), and the
    complete bar. *)
Definition stage (sym w v : Z) : str :=
  if (v <? 5 * w)%Z
  then repeat sym (Z.to_nat (v / 5)) ++ nth (Z.to_nat (v mod 5)) [45; 92; 124; 47; sym]%Z 0%Z :: repeat 32%Z (Z.to_nat (w - v / 5 - 1))
  else repeat sym (Z.to_nat w).

(** Where the moving mark of a busy indicator is in the [k]-th text. *)
Definition boomerang_at (w k : Z) : Z := let r := (k mod (2 * w - 1))%Z in if (r <? w)%Z then r else (2 * w - 2 - r)%Z.
Definition pingpong_at (w k : Z) : Z := let r := (k mod (2 * (w - 3)))%Z in if (r <=? w - 3)%Z then r else (2 * (w - 3) - r)%Z.
(** A text of [w] blanks but for the places [P], which show [c]. *)
Definition blank_but (w : Z) (P : Z -> Prop) (c : Z) (s : str) : Prop :=
  Z.of_nat (length s) = w /\ forall j, (0 <= j < w)%Z -> (P j -> nth (Z.to_nat j) s 0%Z = c) /\ (~ P j -> nth (Z.to_nat j) s 0%Z = 32%Z).
