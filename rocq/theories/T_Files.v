(** Property theorems (generated from P_FilesT.v by tools/gen_theorems.py). *)
From Coq Require Import List ZArith Bool Lia.
From Verif Require Import M_Files S_Files P_Files P_FilesT.
Import ListNotations.
Open Scope Z_scope.

(** C10: on an ordinary file, whatever the block does (reads, seeks, calls that
    raise), the file afterwards is the file before, and the block's exception
    (if any) is the one that leaves the with statement. *)
Theorem C10_position_restored : forall (f : file) (calls : list fop),
  0 <= f_pos f ->
  fst (with_saver f_step f calls) = f /\
  snd (with_saver f_step f calls) = snd (body f_step f calls).
Proof. exact C10_position_restored_proof. Qed.
Print Assumptions C10_position_restored.

(** A block that reads, seeks backwards, then fails. *)
Example C10_position_restored_example :
  body f_step (mkFile [1;2;3;4;5] 2) [Read 2; Seek (-9) 1; Read 1] = (mkFile [1;2;3;4;5] 4, Some OSError) /\
  with_saver f_step (mkFile [1;2;3;4;5] 2) [Read 2; Seek (-9) 1; Read 1] = (mkFile [1;2;3;4;5] 2, Some OSError).
Proof. exact C10_position_restored_example_proof. Qed.

(** C10 on a split file: after any history without exceptions and any block
    (including a failing seek, which by itself does move the wrapper), the
    position is restored and the wrapper again reads like the joined file. *)
Theorem C10_position_restored_split : forall parts w0 history block later w w',
  split_open parts = Ok w0 ->
  Forall (fun o => match o with Read n => 0 <= n | _ => True end) history ->
  w = fst (fruns split_step w0 history) -> no_exception (snd (fruns split_step w0 history)) ->
  w' = fst (with_saver split_step w block) ->
  split_tell w' = split_tell w /\
  (Forall (plain_call parts) later ->
   no_exception (snd (fruns f_step (mkFile (concat parts) (w_pos w)) later)) ->
   snd (fruns split_step w' later) = snd (fruns f_step (mkFile (concat parts) (w_pos w)) later)).
Proof. exact C10_position_restored_split_proof. Qed.
Print Assumptions C10_position_restored_split.

Example C10_position_restored_split_example :
  exists w0, split_open [[1;2;3];[4;5];[6]] = Ok w0 /\
    let w := fst (fruns split_step w0 [Read 4]) in
    split_tell w = Ok 4 /\
    split_tell (fst (body split_step w [Read 1; Seek (-9) 0])) = Ok 5 /\
    split_tell (fst (with_saver split_step w [Read 1; Seek (-9) 0])) = Ok 4 /\
    snd (fruns split_step (fst (with_saver split_step w [Read 1; Seek (-9) 0])) [Read 2; Read 2; Tell])
      = [Data [5;6]; Data []; Pos 6].
Proof. exact C10_position_restored_split_example_proof. Qed.

(** C11: on every sequence of calls that does not raise on the joined file, with
    reads no larger than any interior part and seeks from the start or from
    the current position (or seek(0, 2)), the wrapper returns exactly what the joined
    file returns.  Missing: reads that cross a whole part, seeks relative to
    the end with an offset, failing seeks (all refuted below). *)
Theorem C11_split_refines_joined_partial : forall parts w0 calls,
  split_open parts = Ok w0 ->
  Forall (plain_call parts) calls ->
  no_exception (snd (fruns f_step (joined parts) calls)) ->
  snd (fruns split_step w0 calls) = snd (fruns f_step (joined parts) calls).
Proof. exact C11_split_refines_joined_partial_proof. Qed.
Print Assumptions C11_split_refines_joined_partial.

Example C11_split_refines_joined_example :
  exists w0, split_open [[1;2;3];[4;5];[6;7;8;9]] = Ok w0 /\
    Forall (plain_call [[1;2;3];[4;5];[6;7;8;9]]) [Read 2; Read 2; Seek (-3) 1; Tell; Read 2; Seek 4 0; Read 2; Seek 0 2; Read 1; Seek (-2) 1; Read 2] /\
    snd (fruns split_step w0 [Read 2; Read 2; Seek (-3) 1; Tell; Read 2; Seek 4 0; Read 2; Seek 0 2; Read 1; Seek (-2) 1; Read 2])
      = [Data [1;2]; Data [3;4]; Done; Pos 1; Data [2;3]; Done; Data [5;6]; Done; Data []; Done; Data [8;9]].
Proof. exact C11_split_refines_joined_example_proof. Qed.

(** The advertised size is the size of the joined file. *)
Theorem C11_size : forall parts, total_size parts = zlen (concat parts).
Proof. exact C11_size_proof. Qed.
Print Assumptions C11_size.

(** Whatever the sizes, after any history without exceptions a read never
    returns wrong bytes: the result is a prefix of the right answer, and the
    position advances by its length. *)
Theorem C11_read_is_prefix : forall parts w0 history w n,
  split_open parts = Ok w0 ->
  Forall (fun o => match o with Read k => 0 <= k | _ => True end) history ->
  w = fst (fruns split_step w0 history) -> no_exception (snd (fruns split_step w0 history)) ->
  0 <= n ->
  exists w' d, split_read n w = (w', Ok d) /\
    prefix_of d (ztake n (zdrop (w_pos w) (concat parts))) /\
    split_tell w' = Ok (w_pos w + zlen d).
Proof. exact C11_read_is_prefix_proof. Qed.
Print Assumptions C11_read_is_prefix.

(** A read that spans three parts comes back short although the file goes on. *)
Theorem C11_read_over_three_parts_refuted : exists parts w0 n,
  split_open parts = Ok w0 /\ 0 <= n <= total_size parts /\
  snd (split_read n w0) <> Ok (ztake n (concat parts)).
Proof. exact C11_read_over_three_parts_refuted_proof. Qed.
Print Assumptions C11_read_over_three_parts_refuted.

(** With an empty part in the middle a read returns nothing (which readers
    take for the end of the file) although data follow. *)
Theorem C11_empty_part_ends_reading_refuted : exists parts w0,
  split_open parts = Ok w0 /\
  snd (fruns split_step w0 [Read 2; Read 2]) = [Data [1;2]; Data []] /\
  snd (fruns f_step (joined parts) [Read 2; Read 2]) = [Data [1;2]; Data [3;4]].
Proof. exact C11_empty_part_ends_reading_refuted_proof. Qed.
Print Assumptions C11_empty_part_ends_reading_refuted.

(** seek(p, 2) moves the wrong way: -1 goes past the end instead of one byte
    before it. *)
Theorem C11_seek_from_end_refuted : exists parts w0,
  split_open parts = Ok w0 /\
  snd (fruns split_step w0 [Seek (-1) 2; Tell; Read 1]) = [Done; Pos 5; Data []] /\
  snd (fruns f_step (joined parts) [Seek (-1) 2; Tell; Read 1]) = [Done; Pos 3; Data [4]].
Proof. exact C11_seek_from_end_refuted_proof. Qed.
Print Assumptions C11_seek_from_end_refuted.

(** read(-1) returns only the rest of the current part. *)
Theorem C11_read_all_refuted : exists parts w0,
  split_open parts = Ok w0 /\
  snd (fruns split_step w0 [Read (-1)]) = [Data [1;2]] /\
  snd (fruns f_step (joined parts) [Read (-1)]) = [Data [1;2;3;4]].
Proof. exact C11_read_all_refuted_proof. Qed.
Print Assumptions C11_read_all_refuted.

(** A seek to a negative position raises, but moves the wrapper to the last
    part, after which reading wraps around to the first part. *)
Theorem C11_failed_seek_moves_refuted : exists parts w0,
  split_open parts = Ok w0 /\
  snd (fruns split_step w0 [Read 1; Seek (-1) 0; Tell; Read 3]) = [Data [1]; Exc OSError; Pos 2; Data [3;4;1]] /\
  snd (fruns f_step (joined parts) [Read 1; Seek (-1) 0; Tell; Read 3]) = [Data [1]; Exc OSError; Pos 1; Data [2;3;4]].
Proof. exact C11_failed_seek_moves_refuted_proof. Qed.
Print Assumptions C11_failed_seek_moves_refuted.
