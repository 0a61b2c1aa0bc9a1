(** Specification vocabulary for C147, C148. *)
From Coq Require Import List ZArith QArith.
Import ListNotations.
Open Scope Z_scope.

Definition constant (l : list Q) : Prop := exists c, forall x, In x l -> (x == c)%Q.
Definition between (lo hi : Q) (l : list Q) : Prop := forall x, In x l -> (lo <= x <= hi)%Q.
(** The mean and the square of the standard deviation of some pixels. *)
Definition avg (l : list Q) : Q := (fold_right Qplus 0 l / inject_Z (Z.of_nat (length l)))%Q.
Definition dev2 (l : list Q) : Q := avg (map (fun x => (x - avg l) * (x - avg l))%Q l).
(** [x] is less than three standard deviations from the mean. *)
Definition near (l : list Q) (x : Q) : Prop := ((x - avg l) * (x - avg l) < 9 * dev2 l)%Q.
(** The standard deviation changes by at most a fifth. *)
Definition empty_field (l k : list Q) : Prop := ((4 # 5) * (4 # 5) * dev2 l <= dev2 k /\ dev2 k <= (6 # 5) * (6 # 5) * dev2 l)%Q.
