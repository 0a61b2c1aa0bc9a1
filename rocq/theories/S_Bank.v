(** Specification vocabulary for C152. *)
From Coq Require Import List QArith.
Import ListNotations.
Open Scope nat_scope.

(** f 0 + ... + f (n - 1) *)
Fixpoint total (n : nat) (f : nat -> Q) : Q := match n with O => 0%Q | S n => (total n f + f n)%Q end.
(** The output of a filter bank of n channels and p taps in channel k. *)
Definition bank (weight : nat -> Q) (factor : nat -> nat -> Q) (signal : nat -> Q) (n p k : nat) : Q :=
  total n (fun j => total p (fun i => signal (i * n + j)%nat * weight (i * n + j)%nat)%Q * factor k j)%Q.
Definition ex_factor (k n : nat) : Q := if Nat.even (k * n) then 1%Q else (- (1))%Q.
