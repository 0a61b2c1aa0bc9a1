(** Model of lsl/imaging/analysis.py: estimate_background, from the values of the tiles to what is interpolated (84-90): the replacement
    of nan and the median filter of 3 by 3 tiles.  scipy.signal.medfilt takes what is outside of the tiles as zero.
    Simplifications: exact rational numbers; None is nan; the median the nan are replaced by is a parameter, and so is what it is
    when all are nan (nan in the code). *)
From Coq Require Import List ZArith Bool QArith.
Import ListNotations.
Open Scope Z_scope.

Section Medf.
  Variable nX nY : Z.
  Variable fill : Q.
  Variable basis : Z -> Z -> option Q.
  (** The values with the nan replaced (85-87). *)
  Definition filled (i j : Z) : Q := match basis i j with Some v => v | None => fill end.
  (** As medfilt has them: zero outside. *)
  Definition padded (i j : Z) : Q := if (0 <=? i) && (i <? nX) && (0 <=? j) && (j <? nY) then filled i j else 0%Q.
  Definition nine (i j : Z) : list Q := flat_map (fun a => map (fun b => padded (i + a) (j + b)) [-1; 0; 1]) [-1; 0; 1].
  Fixpoint insert_q (x : Q) (l : list Q) : list Q := match l with [] => [x] | y :: r => if Qle_bool x y then x :: l else y :: insert_q x r end.
  Definition sort_q (l : list Q) : list Q := fold_right insert_q [] l.
  (** medfilt(backgroundBasis, 3) (90) *)
  Definition filtered (i j : Z) : Q := nth 4 (sort_q (nine i j)) 0%Q.
End Medf.
