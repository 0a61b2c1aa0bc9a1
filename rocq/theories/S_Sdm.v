(** Specification vocabulary for C141-C144. *)
From Coq Require Import List ZArith Bool.
From Verif Require Import M_Sdm.
Import ListNotations.
Open Scope Z_scope.

(** The status the table gives for a polarization of a stand, which are counted from 1. *)
Definition table_status (table : list (list Z)) (stand p : Z) : option Z :=
  if (1 <=? stand) && (0 <=? p) then match nth_error table (Z.to_nat (stand - 1)) with Some row => nth_error row (Z.to_nat p) | None => None end else None.
(** Every antenna of [l], and none else, has got the status of its stand and polarization. *)
Definition updated (table : list (list Z)) (h h' : objects) (l : list nat) : Prop :=
  forall a, stand_id (h' a) = stand_id (h a) /\ pol (h' a) = pol (h a) /\
    (In a l -> Some (status (h' a)) = table_status table (stand_id (h a)) (pol (h a))) /\ (~ In a l -> status (h' a) = status (h a)).
(** out[i0][i1]... *)
Fixpoint get (idx : list nat) (x : nest) : option nest :=
  match idx with [] => Some x | i :: r => match x with Leaf _ => None | Node l => match nth_error l i with Some y => get r y | None => None end end end.
(** The place of an element in row-major order. *)
Definition row_major (shape idx : list nat) : nat := fold_left (fun acc '(d, i) => acc * d + i)%nat (combine shape idx) 0%nat.
(** A short as two bytes. *)
Definition le_short (v : Z) : list Z := let u := v mod 65536 in [u mod 256; u / 256].
Definition subsystems : list subsystem := [ASP; NDP; DR1; DR2; DR3; DR4; DR5; SHL; MCS].
Definition settings_bytes (report update : subsystem -> Z) : list Z := flat_map (fun s => le_short (report s)) subsystems ++ flat_map (fun s => le_short (update s)) subsystems.
Definition is_short (v : Z) : Prop := -32768 <= v < 32768.
(** Example objects: two antennas. *)
Definition ex_objects (a : nat) : antenna := match a with O => mkAnt 1 0 3 | 1%nat => mkAnt 2 1 3 | 2%nat => mkAnt 0 0 3 | _ => mkAnt 9 0 3 end.
