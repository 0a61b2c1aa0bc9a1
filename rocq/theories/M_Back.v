(** Model of lsl/imaging/analysis.py: the tiles of estimate_background (24-104) and their values, before filtering and interpolation.
    Simplifications: exact rational numbers, standard deviations compared by their squares; None is nan; the median is a parameter; a negative window is not modelled. *)
From Coq Require Import List ZArith Bool QArith.
From Verif Require Import M_Py.
Import ListNotations.
Open Scope Z_scope.

(** The number of tiles along an axis of [n] pixels (52-53). *)
Definition tiles (n window : Z) : res Z := if window =? 0 then Raise ZeroDivisionError else Ok (2 * n / window).
(** The pixels of a tile along an axis (62): first, and the one after the last; the slice ends with the axis. *)
Definition tile_from (window i : Z) : Z := i * window / 2.
Definition tile_to (n window i : Z) : Z := Z.min n ((i + 1) * window / 2).
(** Its center (81-82). *)
Definition tile_center (window i : Z) : Q := (inject_Z (i * window / 2) + inject_Z window / 4)%Q.
(** Means and variances (66-68). *)
Definition qsum (l : list Q) : Q := fold_right Qplus 0%Q l.
Definition count (l : list Q) : Q := inject_Z (Z.of_nat (length l)).
Definition mean (l : list Q) : Q := (qsum l / count l)%Q.
Definition variance (l : list Q) : Q := (qsum (map (fun x => (x - mean l) * (x - mean l)) l) / count l)%Q.
Definition clipped (l : list Q) : list Q := filter (fun x => negb (Qle_bool (9 * variance l) ((x - mean l) * (x - mean l)))) l.
(** The value of a tile (73-78): without pixels, or without any that are left, nan. *)
Definition basis (median : list Q -> Q) (l : list Q) : option Q :=
  match clipped l with
  | [] => None
  | _ => let v0 := variance l in
         let v1 := variance (clipped l) in
         Some (if Qle_bool ((16 # 25) * v0) v1 && Qle_bool v1 ((36 # 25) * v0) then mean (clipped l)
               else (5 # 2) * median (clipped l) - (3 # 2) * mean (clipped l))%Q
  end.
