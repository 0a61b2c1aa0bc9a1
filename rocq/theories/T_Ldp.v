(** Property theorems (generated from P_LdpT.v by tools/gen_theorems.py). *)
From Coq Require Import List ZArith Bool Lia Permutation.
From Verif Require Import M_Ldp S_Ldp S_Buffer P_Buffer P_BufferModes P_Ldp P_LdpT.
Import ListNotations.
Open Scope Z_scope.

(** C30: a recording whose sets first appear in time order, with single frames late or missing and
    with gaps the reader can fill, is returned by any sequence of read() calls set by set, once each, in
    time order, with zeros where a frame is missing; then comes EOFError. *)
Theorem C30_in_order : forall bit6 b tunes pols nseg re C k skip autofill ignore toff file t0 grid L ns,
  bit6 = 0 \/ bit6 = 64 -> 0 <= b < 8 -> NoDup tunes -> NoDup pols -> drx_cfg [b] tunes pols nseg re = Ok C ->
  (2 <= nseg)%nat -> (1 <= k)%nat ->
  recording file t0 skip grid L -> in_window nseg file -> ids_once (c_possible C) file ->
  gaps_fillable (c_possible C) nseg k autofill grid file -> Forall (fun n => (1 <= n)%nat) ns ->
  in_order file t0 skip toff L (S (last grid 0%nat)) 0 ns (reads bit6 C k skip autofill ignore toff ns (open_ldp C file)).
Proof. exact C30_in_order_proof. Qed.
Print Assumptions C30_in_order.

Example C30_in_order_example : exists C, drx_cfg [1] [1] [0; 1] 3 false = Ok C /\
  recording ex_file (drx_floor + 10) 10 [0; 1; 3; 4; 5; 6; 7]%nat 1 /\ in_window 3 ex_file /\ ids_once (c_possible C) ex_file /\
  gaps_fillable (c_possible C) 3 2 50 [0; 1; 3; 4; 5; 6; 7]%nat ex_file /\
  reads 0 C 2 10 50 false 0 [3; 4; 4; 4]%nat (open_ldp C ex_file) =
   [Ok (3%nat, Some (drx_floor + 10), [[[Fin 10]; [Fin 20]; [Fin 0]]; [[Fin 11]; [Fin 21]; [Fin 0]]; []; []]);
    Ok (4%nat, Some (drx_floor + 40), [[[Fin 40]; [Fin 0]; [Fin 60]; [Fin 70]]; [[Fin 41]; [Fin 51]; [Fin 61]; [Fin 71]]; []; []]);
    Ok (1%nat, Some (drx_floor + 80), [[[Fin 80]]; [[Fin 81]]; []; []]); Raise EOFError].
Proof. exact C30_in_order_example_proof. Qed.

Theorem C30_unbroken : forall bit6 b tunes pols nseg re C k skip autofill ignore toff t0 L sets ns,
  bit6 = 0 \/ bit6 = 64 -> 0 <= b < 8 -> NoDup tunes -> NoDup pols -> drx_cfg [b] tunes pols nseg re = Ok C ->
  (2 <= nseg)%nat -> (1 <= k)%nat -> drx_floor < t0 -> 0 < skip -> sets <> [] -> good_sets (c_possible C) t0 skip L sets ->
  Forall (fun n => (1 <= n)%nat) ns ->
  in_order (set_file sets) t0 skip toff L (length sets) 0 ns (reads bit6 C k skip autofill ignore toff ns (open_ldp C (set_file sets))).
Proof. exact C30_unbroken_proof. Qed.
Print Assumptions C30_unbroken.

Example C30_unbroken_example : exists C, drx_cfg [3] [1; 2] [0; 1] 20 false = Ok C /\ good_sets (c_possible C) (drx_floor + 1) 640 2 ex_sets /\
  reads 0 C 4 640 50 false 0 [2; 2]%nat (open_ldp C (set_file ex_sets)) =
   [Ok (2%nat, Some (drx_floor + 1), [[[Fin 1; Fin 0]; [Fin 11; Fin 0]]; [[Fin 1; Fin 1]; [Fin 11; Fin 1]]; [[Fin 2; Fin 0]; [Fin 12; Fin 0]]; [[Fin 2; Fin 1]; [Fin 0; Fin 0]]]);
    Ok (1%nat, Some (drx_floor + 1281), [[[Fin 21; Fin 0]]; [[Fin 21; Fin 1]]; [[Fin 22; Fin 0]]; [[Fin 22; Fin 1]]])].
Proof. exact C30_unbroken_example_proof. Qed.

(** C30, finding: a set missing where fewer than 20 sets follow is not filled; the whole read fails,
    though a gap of up to 49 sets anywhere else is filled. *)
Theorem C30_gap_near_end_refuted :
  match drx_cfg [1] [1; 2] [0; 1] 20 false with
  | Ok C =>
      reads 0 C 4 10 50 false 0 [60]%nat (open_ldp C (fnd [(1, 0); (1, 1); (2, 0); (2, 1)] (z20 ++ map (Z.add 21) (removelast z20)))) = [Raise RuntimeError] /\
      match reads 0 C 4 10 50 false 0 [70]%nat (open_ldp C (fnd [(1, 0); (1, 1); (2, 0); (2, 1)] (z20 ++ map (Z.add 21) (z20 ++ map (Z.add 20) z20)))) with
      | [Ok (n, _, _)] => n = 61%nat | _ => False end
  | _ => False end.
Proof. exact C30_gap_near_end_refuted_proof. Qed.
Print Assumptions C30_gap_near_end_refuted.

(** C30, finding: gaps are only noticed through tuning 1, polarisation X: a recording of tuning 2 alone fails at any gap. *)
Theorem C30_tuning2_refuted :
  match drx_cfg [1] [2] [0; 1] 20 false with
  | Ok C => reads 0 C 2 10 50 false 0 [70]%nat (open_ldp C (fnd [(2, 0); (2, 1)] (z20 ++ map (Z.add 21) (z20 ++ map (Z.add 20) z20)))) = [Raise RuntimeError]
  | _ => False end.
Proof. exact C30_tuning2_refuted_proof. Qed.
Print Assumptions C30_tuning2_refuted.

(** C30, finding: at the end of the file the buffered sets are taken in order of arrival, not of time. *)
Theorem C30_swapped_tail_refuted :
  match drx_cfg [1] [1; 2] [0; 1] 20 false with
  | Ok C => reads 0 C 4 10 50 false 0 [30]%nat (open_ldp C (fnd [(1, 0); (1, 1); (2, 0); (2, 1)] (z20 ++ [21; 20]))) = [Raise RuntimeError] /\
      match reads 0 C 4 10 50 false 0 [70]%nat (open_ldp C (fnd [(1, 0); (1, 1); (2, 0); (2, 1)] ([0; 2; 1] ++ map (Z.add 3) z20 ++ map (Z.add 23) z20))) with
      | [Ok (n, _, _)] => n = 43%nat | _ => False end
  | _ => False end.
Proof. exact C30_swapped_tail_refuted_proof. Qed.
Print Assumptions C30_swapped_tail_refuted.

(** C30, finding: when the file ends in the middle of a set while a gap is due, the read ends in IndexError. *)
Theorem C30_gap_at_eof_refuted :
  match drx_cfg [1] [1; 2] [0; 1] 20 false with
  | Ok C => reads 0 C 4 10 50 false 0 [30]%nat (open_ldp C (fnd [(1, 0); (1, 1); (2, 0); (2, 1)] (0 :: map (Z.add 2) (removelast z20)) ++ fnd [(1, 0); (1, 1); (2, 0)] [21])) = [Raise IndexError]
  | _ => False end.
Proof. exact C30_gap_at_eof_refuted_proof. Qed.
Print Assumptions C30_gap_at_eof_refuted.

(** C30, finding: a file with two beams cannot be read: both beams are written to the same rows. *)
Theorem C30_two_beams_refuted :
  match drx_cfg [1; 2] [1] [0; 1] 20 false with
  | Ok C => reads 0 C 4 10 50 false 0 [1]%nat (open_ldp C (fnd [(1, 0); (1, 1)] z20 ++
      flat_map (fun j => map (fun p => SFrame (mkDrx (2 + 8 + 128 * p) (drx_floor + 1 + 10 * j) [Fin 1] true)) [0; 1]) z20)) = [Raise RuntimeError]
  | _ => False end.
Proof. exact C30_two_beams_refuted_proof. Qed.
Print Assumptions C30_two_beams_refuted.
