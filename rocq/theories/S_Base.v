(** What it means to list every pair of antennas once. *)
From Coq Require Import List ZArith Sorted.
Open Scope Z_scope.

Definition lex_lt (p q : Z * Z) : Prop := fst p < fst q \/ (fst p = fst q /\ snd p < snd q).

(** [idx] lists exactly the pairs i < j (i <= j with autocorrelations) of
    positions below [n], each once, in dictionary order. *)
Definition all_pairs (auto : bool) (n : Z) (idx : list (Z * Z)) : Prop :=
  StronglySorted lex_lt idx /\
  forall i j, In (i, j) idx <-> 0 <= i /\ j < n /\ (if auto then i <= j else i < j).
