(** Specification vocabulary for C149, C150. *)
From Coq Require Import List ZArith QArith.
From Verif Require Import M_Py M_Virt.
Import ListNotations.
Open Scope Z_scope.

(** A data set has another time than all others, and as many baselines and channels. *)
Definition fits (w : list dset) (d : dset) : Prop :=
  forall e, In e w -> ~ (jd d == jd e)%Q /\ length (bls d) = length (bls e) /\ chans d = chans e.
(** What a writer holds after some data sets with baselines and channels have been added. *)
Inductive holds : list dset -> Prop :=
| holds_none : holds []
| holds_add : forall w d w', holds w -> bls d <> [] -> chans d <> 0%nat -> add w d = Ok w' -> holds w'.
(** In order of time. *)
Fixpoint in_time (w : list dset) (p : list nat) : Prop :=
  match p with a :: ((b :: _) as r) => (exists d e, nth_error w a = Some d /\ nth_error w b = Some e /\ (jd d <= jd e)%Q) /\ in_time w r | _ => True end.
Fixpoint ascending (l : list Z) : Prop := match l with a :: ((b :: _) as r) => a <= b /\ ascending r | _ => True end.
Definition ex_a := mkD 1%Q [3; 2] 4%nat.
Definition ex_b := mkD 2%Q [3; 2] 4%nat.
