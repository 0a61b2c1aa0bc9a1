(** Nested lists of a given shape, and row-major order. *)
From Coq Require Import List ZArith Bool.
From Verif Require Import M_Ndp.
Import ListNotations.
Open Scope Z_scope.

(** The nested list [t] has exactly the lengths [shape] at each depth. *)
Fixpoint shaped {A} (shape : list Z) (t : nest A) : Prop :=
  match shape with
  | [] => exists a, t = Leaf a
  | d :: ds => exists l, t = Node l /\ zlen l = d /\ Forall (shaped ds) l
  end.
(** t[i][j]...[k] *)
Fixpoint get {A} (idx : list Z) (t : nest A) : option A :=
  match idx, t with
  | [], Leaf a => Some a
  | i :: is, Node l => if (0 <=? i) && (i <? zlen l) then get is (nth (Z.to_nat i) l (Node [])) else None
  | _, _ => None
  end.
Fixpoint in_shape (shape idx : list Z) : Prop :=
  match shape, idx with
  | [], [] => True
  | d :: ds, i :: is => 0 <= i < d /\ in_shape ds is
  | _, _ => False
  end.
Definition size (shape : list Z) : Z := fold_right Z.mul 1 shape.
(** Position of an element in row-major order: the last index runs fastest. *)
Fixpoint row_major (shape idx : list Z) : Z :=
  match shape, idx with
  | _ :: ds, i :: is => i * size ds + row_major ds is
  | _, _ => 0
  end.
