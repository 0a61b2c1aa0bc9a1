(** What is asked of the robust statistics, independent of the model. *)
From Coq Require Import List ZArith QArith Qcanon Qcabs Arith.
Import ListNotations.
Open Scope Qc_scope.

(** The number n/d. *)
Definition frac (n : Z) (d : positive) : Qc := Q2Qc (n # d).
(** How many of the numbers lie between a and b. *)
Fixpoint inside (a b : Qc) (l : list Qc) : nat :=
  match l with
  | [] => 0
  | x :: l => (if Qclt_le_dec x a then 0 else if Qclt_le_dec b x then 0 else 1) + inside a b l
  end.
(** More than half of the numbers lie between a and b. *)
Definition most (a b : Qc) (l : list Qc) : Prop := (length l < 2 * inside a b l)%nat.
(** No value is repeated by half of the numbers, even up to 10^-20. *)
Definition spread_out (l : list Qc) : Prop :=
  forall a b, b - a <= Q2Qc (2 # 100000000000000000000) -> (2 * inside a b l < length l)%nat.
(** Every number moved by t, stretched by k. *)
Definition moved (t : Qc) (l : list Qc) : list Qc := map (fun x => x + t) l.
Definition stretched (k : Qc) (l : list Qc) : list Qc := map (fun x => k * x) l.
(** The value of a polynomial with the highest coefficient first. *)
Definition poly_value (c : list Qc) (x : Qc) : Qc := fold_left (fun v a => v * x + a) c 0.
(** All the numbers are the same. *)
Definition all_equal (l : list Qc) : Prop := forall v w, In v l -> In w l -> v = w.
