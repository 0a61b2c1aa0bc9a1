(** Property theorems (generated from P_CacheT.v by tools/gen_theorems.py). *)
From Coq Require Import List Arith ZArith Bool Lia Permutation.
From Verif Require Import M_Cache S_Cache P_Cache P_CacheT.
Import ListNotations.

(** When a file has been opened for writing the cache is within its limit or has a single entry; the oldest
    entries have gone, no more than necessary, and everything else is still there. *)
Theorem C32_filecache_clean_on_open_partial : forall limit o es es1 es', proper o -> before_cleaning o es es1 -> fstep (Some limit) o es = Done es' ->
  exists gone, Permutation es1 (gone ++ es') /\
    ((total e_size es' <= limit)%Z \/ length es' <= 1) /\
    (forall g k, In g gone -> In k es' -> (e_mtime g <= e_mtime k)%Z) /\
    (forall l g, gone = l ++ [g] -> (limit < total e_size (g :: es'))%Z /\ 1 <= length es').
Proof. exact C32_filecache_clean_on_open_partial_proof. Qed.
Print Assumptions C32_filecache_clean_on_open_partial.

Example C32_filecache_clean_on_open_example : fstep (Some 95%Z) (FOpenA 4 40 (@rev entry)) three = Done [mkE 3 40 20 false; mkE 2 50 30 false; mkE 4 0 40 false] /\
  fstep (Some 60%Z) (FOpenA 4 40 (fun l => l)) three = Done [mkE 4 0 40 false; mkE 2 50 30 false].
Proof. exact C32_filecache_clean_on_open_example_proof. Qed.

(** A file that is opened with 'w' is in the cache afterwards, if every other entry is older. *)
Theorem C32_filecache_new_file_kept_partial : forall limit n now order es es', listing order -> (forall e, In e es -> (e_mtime e < now)%Z) ->
  fstep limit (FOpenW n now order) es = Done es' -> In (mkE n 0 now false) es'.
Proof. exact C32_filecache_new_file_kept_partial_proof. Qed.
Print Assumptions C32_filecache_new_file_kept_partial.

Example C32_filecache_new_file_kept_example : fstep (Some 1%Z) (FOpenW 1 40 (fun l => l)) three = Done [mkE 1 0 40 false] /\ listing (fun l => l) /\ listing (@rev entry).
Proof. exact C32_filecache_new_file_kept_example_proof. Qed.

(** Without a limit only remove() ever takes a file away. *)
Theorem C32_filecache_unlimited : forall l es n, Forall proper l -> ~ In (FRemove n) l -> In n (names es) ->
  exists es', frun None l es = Done es' /\ In n (names es').
Proof. exact C32_filecache_unlimited_proof. Qed.
Print Assumptions C32_filecache_unlimited.

Example C32_filecache_unlimited_example :
  frun None [FOpenA 4 40 (fun l => l); FWrite 4 1000000 41; FRemove 1; FOpenW 2 50 (@rev entry)] three = Done [mkE 3 40 20 false; mkE 4 1000000 41 false; mkE 2 0 50 false].
Proof. exact C32_filecache_unlimited_example_proof. Qed.

(** As long as there are no directories in the cache, cleaning up always ends. *)
Theorem C32_filecache_terminates_partial : forall limit l es, Forall proper l -> Forall flat l -> (forall e, In e es -> e_dir e = false) -> frun limit l es <> Forever.
Proof. exact C32_filecache_terminates_partial_proof. Qed.
Print Assumptions C32_filecache_terminates_partial.

Example C32_filecache_terminates_example : (forall e, In e three -> e_dir e = false) /\ proper (FOpenA 4 40 (fun l => l)) /\ flat (FOpenA 4 40 (fun l => l)).
Proof. exact C32_filecache_terminates_example_proof. Qed.

(** Writing to a file in the cache makes that file, and nothing else, larger by what was written; a file that is no
    longer there is not brought back. *)
Theorem C32_filecache_write_counts : forall limit n k now es, exists es', fstep limit (FWrite n k now) es = Done es' /\
  (forall m, m <> n -> find_entry m es' = find_entry m es) /\
  find_entry n es' = option_map (fun e => mkE n (e_size e + k) now (e_dir e)) (find_entry n es).
Proof. exact C32_filecache_write_counts_proof. Qed.
Print Assumptions C32_filecache_write_counts.

Example C32_filecache_write_counts_example : fstep (Some 60%Z) (FWrite 3 25 99) three = Done [mkE 3 65 99 false; mkE 1 60 10 false; mkE 2 50 30 false].
Proof. exact C32_filecache_write_counts_example_proof. Qed.

(** Violated: a file in a subdirectory makes the cache hang once the limit is exceeded and the directory is the oldest entry. *)
Theorem C32_filecache_hang_refuted : exists l, Forall proper l /\ frun (Some 5000%Z) l [] = Forever.
Proof. exact C32_filecache_hang_refuted_proof. Qed.
Print Assumptions C32_filecache_hang_refuted.

(** Violated: after the write the cache is over its limit and stays so. *)
Theorem C32_filecache_after_write_refuted : exists l es, Forall proper l /\ frun (Some 5000%Z) l [] = Done es /\ (5000 < total e_size es)%Z /\ 1 < length es.
Proof. exact C32_filecache_after_write_refuted_proof. Qed.
Print Assumptions C32_filecache_after_write_refuted.

(** Violated: open(n, 'a') of the oldest file removes that file, and what is appended is lost. *)
Theorem C32_filecache_append_refuted : exists l es, Forall proper l /\
  frun (Some 5000%Z) (l ++ [FOpenA 1 30 (fun l => l); FWrite 1 100 31]) [] = Done es /\ ~ In 1 (names es).
Proof. exact C32_filecache_append_refuted_proof. Qed.
Print Assumptions C32_filecache_append_refuted.

(** Violated: with equal times (a coarse clock) the file just opened with 'w' may be the one that goes. *)
Theorem C32_filecache_tie_refuted : exists es', fstep (Some 5000%Z) (FOpenW 2 10 (fun l => l)) [mkE 1 6000 10 false] = Done es' /\ ~ In 2 (names es').
Proof. exact C32_filecache_tie_refuted_proof. Qed.
Print Assumptions C32_filecache_tie_refuted.

(** Violated: a failed open() keeps the lock. *)
Theorem C32_filecache_lock_leak_refuted : forall limit n es, ~ In n (names es) -> open_leaves_lock (fstep limit (FOpenR n) es) = true.
Proof. exact C32_filecache_lock_leak_refuted_proof. Qed.
Print Assumptions C32_filecache_lock_leak_refuted.

(** The same for the memory cache; the time of a file is that of its last flush(). *)
Theorem C32_memorycache_clean_partial : forall limit c,
  exists gone, Permutation c (gone ++ mmanage (Some limit) c) /\
    ((total (fun x => Z.of_nat (length (f_data (snd x)))) (mmanage (Some limit) c) <= limit)%Z \/ length (mmanage (Some limit) c) <= 1) /\
    (forall g k, In g gone -> In k (mmanage (Some limit) c) -> (f_mtime (snd g) <= f_mtime (snd k))%Z) /\
    (forall l g, gone = l ++ [g] -> (limit < total (fun x => Z.of_nat (length (f_data (snd x)))) (g :: mmanage (Some limit) c))%Z /\ 1 <= length (mmanage (Some limit) c)).
Proof. exact C32_memorycache_clean_partial_proof. Qed.
Print Assumptions C32_memorycache_clean_partial.

Example C32_memorycache_clean_example : mmanage (Some 90%Z) [(1, file_of 60 10); (2, file_of 50 30); (3, file_of 40 20)] = [(2, file_of 50 30); (3, file_of 40 20)].
Proof. exact C32_memorycache_clean_example_proof. Qed.

(** Without a limit open() takes no file away. *)
Theorem C32_memorycache_unlimited : forall n k c m, lookup m c <> None -> lookup m (fst (copen None n k c)) <> None.
Proof. exact C32_memorycache_unlimited_proof. Qed.
Print Assumptions C32_memorycache_unlimited.

Example C32_memorycache_unlimited_example : lookup 1 [(1, file_of 60 10)] <> None.
Proof. exact C32_memorycache_unlimited_example_proof. Qed.

(** Violated: the memory cache throws away the file that is just being opened, because times are only set by flush(). *)
Theorem C32_memorycache_new_file_refuted : exists l, lookup 2 (fst (mrun (Some 50%Z) l [])) = None /\ last (map snd l) (MRemove 2) = MOpen 2 W.
Proof. exact C32_memorycache_new_file_refuted_proof. Qed.
Print Assumptions C32_memorycache_new_file_refuted.

(** Violated: getmtime() of a file in the memory cache raises TypeError. *)
Theorem C32_memorycache_getmtime_refuted : forall n c, lookup n c <> None -> cgetmtime n c = Raise TypeError.
Proof. exact C32_memorycache_getmtime_refuted_proof. Qed.
Print Assumptions C32_memorycache_getmtime_refuted.

(** A program that uses 'w' and 'r' as intended cannot tell the memory cache (without a limit) from ordinary files,
    whatever it writes, reads, seeks, truncates and removes, on any number of files, interleaved in any way; the only
    difference is that seek() returns nothing. *)
Theorem C33_memory_files_partial : forall l, ordinary_run l no_files ->
  snd (mrun None l []) = expected l no_files /\
  forall n, cgetsize n (fst (mrun None l [])) = match content (fst (file_run l no_files)) n with Some d => Ok (Z.of_nat (length d)) | None => Raise OSError end /\
            option_map f_data (lookup n (fst (mrun None l []))) = content (fst (file_run l no_files)) n.
Proof. exact C33_memory_files_partial_proof. Qed.
Print Assumptions C33_memory_files_partial.

Example C33_memory_files_example : ordinary_run session no_files /\
  snd (mrun None session []) = [Opened; Answer (Num 4); Opened; Answer Nothing; Answer (Num 1); Answer Nothing; Answer (Num 1); Closed; Closed; Opened; Answer (Bytes [65; 90; 10]%Z); Answer (Bytes [67]%Z);
    Answer (Num 4); Closed; Opened; Answer (Bytes [0; 0; 0; 1]%Z); Closed].
Proof. exact C33_memory_files_example_proof. Qed.

(** Opening with 'w' empties the file and starts at 0, whatever was done before. *)
Theorem C33_truncates : forall n c, (forall m f, lookup m c = Some f -> f_closed f = true /\ f_pos f = 0) ->
  exists f, snd (copen None n W c) = Ok f /\ lookup n (fst (copen None n W c)) = Some f /\ f_data f = [] /\ f_pos f = 0.
Proof. exact C33_truncates_proof. Qed.
Print Assumptions C33_truncates.

Example C33_truncates_example : forall m f, lookup m [(1, file_of 60 10)] = Some f -> f_closed f = true /\ f_pos f = 0.
Proof. exact C33_truncates_example_proof. Qed.

(** Violated: opening in append mode overwrites the file from its start. *)
Theorem C33_append_refuted :
  let l := [(1%Z, MOpen 1 W); (1%Z, MCall 1 (Write [1; 2; 3]%Z)); (1%Z, MClose 1); (1%Z, MOpen 1 A); (1%Z, MCall 1 (Write [9]%Z)); (1%Z, MClose 1)] in
  option_map f_data (lookup 1 (fst (mrun None l []))) = Some [9; 2; 3]%Z /\ content (fst (file_run l no_files)) 1 = Some [1; 2; 3; 9]%Z.
Proof. exact C33_append_refuted_proof. Qed.
Print Assumptions C33_append_refuted.

(** Violated: iterating over an open file gives the first line only. *)
Theorem C33_iterate_refuted :
  let l := [(1%Z, MOpen 1 W); (1%Z, MCall 1 (Write [65; 10; 66; 10; 67]%Z)); (1%Z, MClose 1); (1%Z, MOpen 1 R); (1%Z, MCall 1 Iterate)] in
  last (snd (mrun None l [])) Closed = Answer (Lines [[65; 10]%Z]) /\ last (snd (file_run l no_files)) Closed = Answer (Lines [[65; 10]; [66; 10]; [67]]%Z).
Proof. exact C33_iterate_refuted_proof. Qed.
Print Assumptions C33_iterate_refuted.

(** Violated: reading a file that does not exist succeeds, and creates it. *)
Theorem C33_read_missing_refuted : forall limit n c, lookup n c = None ->
  exists f, snd (copen limit n R c) = Ok f /\ lookup n (fst (copen limit n R c)) = Some f.
Proof. exact C33_read_missing_refuted_proof. Qed.
Print Assumptions C33_read_missing_refuted.

(** Violated: a file opened for reading can be written. *)
Theorem C33_write_protected_refuted :
  let l := [(1%Z, MOpen 1 W); (1%Z, MCall 1 (Write [1; 2; 3]%Z)); (1%Z, MClose 1); (1%Z, MOpen 1 R); (1%Z, MCall 1 (Write [9]%Z)); (1%Z, MClose 1)] in
  option_map f_data (lookup 1 (fst (mrun None l []))) = Some [9; 2; 3]%Z.
Proof. exact C33_write_protected_refuted_proof. Qed.
Print Assumptions C33_write_protected_refuted.

(** Violated: opening a file that is open raises, and closes the handle in use. *)
Theorem C33_nested_open_refuted :
  snd (mrun None [(1%Z, MOpen 1 W); (1%Z, MCall 1 (Write [1]%Z)); (1%Z, MOpen 1 R); (1%Z, MCall 1 (Write [2]%Z))] []) = [Opened; Answer (Num 1); OpenErr OSError; Answer (Err OSError)].
Proof. exact C33_nested_open_refuted_proof. Qed.
Print Assumptions C33_nested_open_refuted.

(** Violated: truncate() does not extend a file, and works on a closed one. *)
Theorem C33_truncate_refuted :
  (let l := [(1%Z, MOpen 1 W); (1%Z, MCall 1 (Truncate (Some 4)%Z)); (1%Z, MClose 1)] in
   option_map f_data (lookup 1 (fst (mrun None l []))) = Some [] /\ content (fst (file_run l no_files)) 1 = Some [0; 0; 0; 0]%Z) /\
  snd (mrun None [(1%Z, MOpen 1 W); (1%Z, MClose 1); (1%Z, MCall 1 (Truncate (Some 0)%Z))] []) = [Opened; Closed; Answer (Num 0)].
Proof. exact C33_truncate_refuted_proof. Qed.
Print Assumptions C33_truncate_refuted.
