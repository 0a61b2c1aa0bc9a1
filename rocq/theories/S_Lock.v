(** What a lock promises. *)
From Coq Require Import List Arith.
From Verif Require Import M_Lock.
Import ListNotations.

(** Thread [t] is between an acquire() of object [c] that returned True and the release(). *)
Definition holds (s : lock_st) (c t : nat) : Prop := In t (users s c).
Definition nobody (s : lock_st) : Prop := forall c t, ~ holds s c t.

(** A schedule in which the lock file is only removed while nobody holds the lock, no thread calls acquire() on
    an object that is locked already, and only the thread that holds an object releases it. *)
Fixpoint careful (l : list act) (s : lock_st) : Prop :=
  match l with
  | [] => True
  | a :: r =>
      match a with
      | AUnlink => nobody s
      | AJoin c _ => forall u, ~ holds s c u
      | ARelease c t => forall u, holds s c u -> u = t
      | _ => True
      end /\ careful r (step a s)
  end.
(** One uninterrupted attempt of thread [t] to acquire object [c]. *)
Definition attempt_by (c t : nat) : list act := [AOpen c; AFlock c; ACheck c t].
