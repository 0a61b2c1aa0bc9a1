(** Model of lsl/statistics/stattests.py: the runs test, up to the normal distribution. *)
From Coq Require Import List ZArith Bool QArith.
Import ListNotations.
Open Scope Z_scope.

(** _to_binary (17-26): values as exact numbers. *)
Definition to_binary (l : list Q) : list bool := map (fun q => negb (Qle_bool q 0)) l.
(** The loop of _count_runs (45-52) over zip(data[1:], data[0:-1]): the total. *)
Fixpoint runs_loop (tot : Z) (prev : bool) (l : list bool) : Z :=
  match l with
  | [] => tot
  | c :: r =>
      let tot := match c, prev with true, true => tot | true, false => tot + 1 | false, true => tot + 1 | false, false => tot end in
      runs_loop tot c r
  end.
(** _count_runs (29-56): the number of runs, of positive and of other values. *)
Definition count_runs (l : list Q) : Z * Z * Z :=
  let data := to_binary l in
  let tot := match data with [] => 1 | p :: r => runs_loop 1 p r end in
  let pos := Z.of_nat (length (filter (fun b => b) data)) in
  (tot, pos, Z.of_nat (length data) - pos).
(** wald_wolfowitz (59-81) as far as the mean and the variance; None: a division by zero. *)
Definition ww_mean (l : list Q) : option Q :=
  let '(_, np, nn) := count_runs l in
  if np + nn =? 0 then None else Some (inject_Z (2 * np * nn) / inject_Z (np + nn) + 1)%Q.
Definition ww_var (l : list Q) : option Q :=
  let '(_, np, nn) := count_runs l in
  let d := (np + nn) * (np + nn) * (np + nn - 1) in
  if d =? 0 then None else Some (inject_Z (2 * np * nn * (2 * np * nn - np - nn)) / inject_Z d)%Q.
(** The numerator of z: N - mean with the correction for few runs (73-78). *)
Definition ww_num (l : list Q) : option Q :=
  match ww_mean l with
  | None => None
  | Some m => let n := inject_Z (fst (fst (count_runs l))) in
              Some (if negb (Qle_bool n 50) then n - m else if negb (Qle_bool 0 (n - m)) then n - m + (1 # 2) else n - m - (1 # 2))%Q
  end.
