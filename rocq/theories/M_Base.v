(** Model of the baseline lists of correlator/uvutils.py and of the packed baseline numbers of the writers. *)
From Coq Require Import List ZArith Bool.
From Verif Require Export M_Py LibList.
Import ListNotations.
Open Scope Z_scope.

(** range(a, b) *)
Definition range (a b : Z) : list Z := map (fun k => a + Z.of_nat k) (seq 0 (Z.to_nat (b - a))).

Section Base.
Context {A : Type} (eqb : A -> A -> bool).

(** l[i]; negative indices count from the end *)
Definition py_index (l : list A) (i : Z) : res A :=
  match nth_error l (Z.to_nat (if i <? 0 then i + zlen l else i)) with
  | Some x => if (if i <? 0 then i + zlen l else i) <? 0 then Raise IndexError else Ok x
  | None => Raise IndexError
  end.

(** One append of the inner loop of get_baselines (uvutils.py 70) *)
Definition pair_at (a1 a2 : list A) (i j : Z) : res (A * A) :=
  bind (py_index a1 i) (fun x => bind (py_index a2 j) (fun y => Ok (x, y))).

(** Stops at the first exception. *)
Fixpoint collect {B} (l : list (res B)) : res (list B) :=
  match l with
  | [] => Ok []
  | r :: l' => bind r (fun x => bind (collect l') (fun y => Ok (x :: y)))
  end.

(** get_baselines (uvutils.py 48-72).  [a2] = None is the default antennas2. *)
Definition get_baselines (a1 : list A) (a2 : option (list A)) (auto : bool) : res (list (A * A)) :=
  let off := if auto then 0 else 1 in
  let n := zlen a1 in
  let b := match a2 with Some l => l | None => a1 end in
  collect (flat_map (fun i => map (fun j => pair_at a1 b i j) (range (i + off) n)) (range 0 n)).

(** [ant1 in baseline and ant2 in baseline] (uvutils.py 121) *)
Definition both_in (x y : A) (p : A * A) : bool :=
  (eqb x (fst p) || eqb x (snd p)) && (eqb y (fst p) || eqb y (snd p)).

(** The search loop of antennas_to_baseline (uvutils.py 118-124) *)
Fixpoint find_pair (x y : A) (l : list (A * A)) (i : Z) : Z :=
  match l with
  | [] => -1
  | p :: l' => if both_in x y p then i else find_pair x y l' (i + 1)
  end.

(** antennas_to_baseline (uvutils.py 98-124); [bl] is baseline_list. *)
Definition antennas_to_baseline (x y : A) (a1 : list A) (a2 : option (list A)) (bl : option (list (A * A))) (auto : bool) : res Z :=
  match bl with
  | Some l => Ok (find_pair x y l 0)
  | None => bind (get_baselines a1 a2 auto) (fun l => Ok (find_pair x y l 0))
  end.
End Base.

(** baseline_to_antennas (uvutils.py 75-95) *)
Definition baseline_to_antennas {A} (b : Z) (a1 : list A) (a2 : option (list A)) (bl : option (list (A * A))) (auto : bool) : res (A * A) :=
  match bl with
  | Some l => py_index l b
  | None => bind (get_baselines a1 a2 auto) (fun l => py_index l b)
  end.

(** merge_baseline, split_baseline (writer/fitsidi.py 64-78, writer/measurementset.py 42-58) *)
Definition merge_bits (shift a1 a2 : Z) : Z := Z.lor (Z.shiftl a1 shift) a2.
Definition split_bits (shift b : Z) : Z * Z :=
  let part := 2 ^ shift - 1 in (Z.land (Z.shiftr b shift) part, Z.land b part).

(** merge_baseline, split_baseline (writer/uvfits.py 38-63) *)
Definition merge_uvfits (a1 a2 : Z) : Z :=
  if (255 <? a1) || (255 <? a2) then a1 * 2048 + a2 + 65536 else a1 * 256 + a2.
Definition split_uvfits (b : Z) : Z * Z :=
  if 65536 <=? b then ((b - 65536) / 2048, (b - 65536) mod 2048) else (b / 256, b mod 256).
