(** Python values shared by all models: exceptions as values. *)
From Coq Require Import ZArith.

(** Exceptions raised by the modelled code.  [EOFError] and [SyncError] are
    lsl.reader.errors.EOFError / SyncError (reader/errors.py). *)
Inductive exn :=
| KeyError | IndexError | RuntimeError | TypeError | ValueError | OSError
| AttributeError | NameError | ZeroDivisionError | AssertionError | NotImplementedError
| StopIteration | LockTimeout | MemoryError | OverflowError | UnicodeError
| EOFError | SyncError.

Inductive res (A : Type) := Ok (a : A) | Raise (e : exn).
Arguments Ok {A} _.
Arguments Raise {A} _.

Definition bind {A B} (r : res A) (f : A -> res B) : res B :=
  match r with Ok a => f a | Raise e => Raise e end.
