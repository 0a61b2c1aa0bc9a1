(** Specification vocabulary for C151. *)
From Coq Require Import List ZArith QArith.
Import ListNotations.
Open Scope Z_scope.

Definition tile (nX nY i j : Z) : Prop := 0 <= i < nX /\ 0 <= j < nY.
(** A tile that is the same or next to it, also across a corner. *)
Definition next_to (i j i' j' : Z) : Prop := Z.abs (i' - i) <= 1 /\ Z.abs (j' - j) <= 1.
Definition corner (nX nY i j : Z) : Prop := (i = 0 \/ i = nX - 1) /\ (j = 0 \/ j = nY - 1).
