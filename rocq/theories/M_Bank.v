(** Model of lsl/correlator/filterbank.py: fft (28-45).
    Simplifications: real signals in exact rational numbers; the weight of a sample, the product of the window and the filter
    coefficient (18-25, 36), and the factor of sample n in channel k of the Fourier transform are parameters, so that the model is of the
    real or of the imaginary part. *)
From Coq Require Import List ZArith Bool QArith.
From Verif Require Import M_Py.
Import ListNotations.
Open Scope nat_scope.

Section Bank.
  Variable weight : nat -> Q.
  Variable factor : nat -> nat -> Q.
  (** signal[0:N*P]*window(N*P)*coefficients (36): arrays of one sample are repeated, others must be as long. *)
  Definition weigh (signal : list Q) (m : nat) : res (list Q) :=
    let s := firstn m signal in
    if Nat.eqb (length s) m then Ok (map (fun t => nth t s 0 * weight t)%Q (seq 0 m))
    else match s with
         | [x] => Ok (map (fun t => x * weight t)%Q (seq 0 m))
         | _ => Raise ValueError
         end.
  (** numpy.fft.fft; no samples are a ValueError. *)
  Definition dft (x : list Q) : res (list Q) :=
    match x with
    | [] => Raise ValueError
    | _ => Ok (map (fun k => fold_right Qplus 0%Q (map (fun n => nth n x 0 * factor k n)%Q (seq 0 (length x)))) (seq 0 (length x)))
    end.
  (** The loop over the taps (38-45); None is a name that is not bound yet. *)
  Fixpoint zip_add (a b : list Q) : list Q := match a, b with x :: a, y :: b => (x + y)%Q :: zip_add a b | _, _ => [] end.
  Fixpoint taps (x : list Q) (n : nat) (is : list nat) (out : option (list Q)) : res (list Q) :=
    match is with
    | [] => match out with Some o => Ok o | None => Raise NameError end
    | i :: r => bind (dft (firstn n (skipn (i * n) x))) (fun t => taps x n r (Some (match out with Some o => zip_add o t | None => t end)))
    end.
  Definition fft (signal : list Q) (n p : nat) : res (list Q) := bind (weigh signal (n * p)) (fun x => taps x n (seq 0 p) None).
End Bank.
(** fft2 ... fft32 (47-80) *)
Definition fft2 weight factor signal n := fft weight factor signal n 2.
Definition fft4 weight factor signal n := fft weight factor signal n 4.
Definition fft8 weight factor signal n := fft weight factor signal n 8.
Definition fft16 weight factor signal n := fft weight factor signal n 16.
Definition fft32 weight factor signal n := fft weight factor signal n 32.
