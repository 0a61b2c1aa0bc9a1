(** Vocabulary of the file properties (C10, C11). *)
From Coq Require Import List ZArith Bool.
From Verif Require Import M_Files.
Import ListNotations.
Open Scope Z_scope.

(** The file obtained by concatenating the parts, at its beginning. *)
Definition joined (parts : list (list Z)) : file := mkFile (concat parts) 0.

(** The parts that are neither the first nor the last one. *)
Definition interior (parts : list (list Z)) : list (list Z) := removelast (tl parts).

(** The calls for which the wrapper is claimed to be exact: a read asks for a
    non-negative number of bytes, not larger than any interior part; a seek
    is relative to the start or to the current position, or is seek(0, 2). *)
Definition plain_call (parts : list (list Z)) (o : fop) : Prop :=
  match o with
  | Read n => 0 <= n /\ (forall p, In p (interior parts) -> n <= zlen p)
  | Seek p wh => wh = 0 \/ wh = 1 \/ (wh = 2 /\ p = 0)
  | Tell => True
  end.

(** No call raised. *)
Definition no_exception (outs : list fout) : Prop := forall e, ~ In (Exc e) outs.

Definition prefix_of (a b : list Z) : Prop := exists c, b = a ++ c.
