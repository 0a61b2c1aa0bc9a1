(** Specification vocabulary for C137, C138. *)
From Coq Require Import List ZArith Bool QArith.
Import ListNotations.
Open Scope Q_scope.

Fixpoint add_up (l : list Q) : Q := match l with [] => 0 | x :: r => x + add_up r end.
(** The broadening of a unit pulse at the time with index [p]: the broadening function from there on, of unit area. *)
Definition broadened (screen : list Q -> Q -> list Q) (t : list Q) (tau : Q) (p : nat) : list Q :=
  let g := screen (map (fun x => x - nth p t 0) t) tau in map (fun x => x / add_up g) g.
(** The sum over p < n. *)
Fixpoint sum_to (n : nat) (f : nat -> Q) : Q := match n with O => 0 | S n => sum_to n f + f n end.
(** The broadening function gives a value for each time and does not vanish altogether. *)
Definition broadening (screen : list Q -> Q -> list Q) (t : list Q) (tau : Q) : Prop :=
  forall p, (p < length t)%nat -> length (screen (map (fun x => x - nth p t 0) t) tau) = length t /\ ~ add_up (screen (map (fun x => x - nth p t 0) t) tau) == 0.
(** A broadening function for the examples. *)
Definition flat (t : list Q) (tau : Q) : list Q := map (fun _ => 1) t.
