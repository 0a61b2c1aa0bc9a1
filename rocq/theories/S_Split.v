(** Specification vocabulary for C131-C134. *)
From Coq Require Import List ZArith Bool QArith Qabs.
From Verif Require Import M_Split M_Tobj.
Import ListNotations.
Open Scope Z_scope.

(** ** Splitting files. *)
(** The bytes a, a+1, ..., b-1. *)
Definition bytes (a b : nat) (data : list Z) : list Z := firstn (b - a) (skipn a data).
(** The first frame of a capture: tuning 1, polarization 0. *)
Definition opens_capture (f : dframe) : Prop := f_tune f = 1 /\ f_pol f = 0.
(** The frames a DRX file can hold. *)
Definition drx_frame (f : dframe) : Prop := (f_tune f = 1 \/ f_tune f = 2) /\ (f_pol f = 0 \/ f_pol f = 1).

(** ** Runs. *)
(** A sequence of [k] runs: [k] blocks of equal values, each other than the one before. *)
Inductive has_runs : list bool -> Z -> Prop :=
| hr_none : has_runs [] 0
| hr_one : forall b, has_runs [b] 1
| hr_same : forall b l k, has_runs (b :: l) k -> has_runs (b :: b :: l) k
| hr_new : forall b l k, has_runs (b :: l) k -> has_runs (negb b :: b :: l) (k + 1).
