(** Property theorems (generated from P_LockT.v by tools/gen_theorems.py). *)
From Coq Require Import List Arith Bool Lia.
From Verif Require Import M_Lock S_Lock P_Lock P_LockT.
Import ListNotations.

(** Whatever any number of processes and threads do, two holders of the lock are one and the same, as long as the
    lock file is not removed under a holder, locked objects are not shared, and holders do their own releases.
    Crashes may happen anywhere. *)
Theorem C34_filelock_mutual_exclusion_partial : forall l c1 t1 c2 t2, careful l start ->
  holds (run l start) c1 t1 -> holds (run l start) c2 t2 -> c1 = c2 /\ t1 = t2.
Proof. exact C34_filelock_mutual_exclusion_partial_proof. Qed.
Print Assumptions C34_filelock_mutual_exclusion_partial.

(** Two objects race, the first wins, crashes; the file is removed; the second wins with a new file. *)
Example C34_filelock_mutual_exclusion_example :
  let l := [AOpen 0; AOpen 1; AFlock 1; AFlock 0; ACheck 1 7; ACrash 1; AUnlink; AOpen 0; AFlock 0; ACheck 0 5] in
  careful l start /\ holds (run l start) 0 5.
Proof. exact C34_filelock_mutual_exclusion_example_proof. Qed.

(** Even if the lock file is removed at any time and objects are shared, at most one object is locked per file. *)
Theorem C34_filelock_one_per_file : forall l i c1 c2, pc (run l start) c1 = Held i -> pc (run l start) c2 = Held i -> c1 = c2.
Proof. exact C34_filelock_one_per_file_proof. Qed.
Print Assumptions C34_filelock_one_per_file.

Example C34_filelock_one_per_file_example :
  let s := run (attempt_by 0 5 ++ [AUnlink] ++ attempt_by 1 6) start in pc s 0 = Held 0 /\ pc s 1 = Held 1.
Proof. exact C34_filelock_one_per_file_example_proof. Qed.

(** When the holder releases the lock, or its process dies, the next attempt succeeds. *)
Theorem C34_filelock_release_lets_in_partial : forall l a c1 t1 c2 t2, careful l start ->
  holds (run l start) c1 t1 -> a = ARelease c1 t1 \/ a = ACrash c1 -> pc (run l start) c2 = Idle \/ c2 = c1 ->
  holds (run (l ++ a :: attempt_by c2 t2) start) c2 t2.
Proof. exact C34_filelock_release_lets_in_partial_proof. Qed.
Print Assumptions C34_filelock_release_lets_in_partial.

Example C34_filelock_release_lets_in_example :
  holds (run (attempt_by 0 5) start) 0 5 /\ ~ holds (run (attempt_by 0 5 ++ attempt_by 1 6) start) 1 6 /\
  holds (run (attempt_by 0 5 ++ ACrash 0 :: attempt_by 1 6) start) 1 6.
Proof. exact C34_filelock_release_lets_in_example_proof. Qed.

(** An attempt nobody interferes with fails only if somebody else has the lock or is about to. *)
Theorem C34_filelock_fails_only_when_taken_partial : forall l c t, careful l start -> pc (run l start) c = Idle ->
  ~ holds (run (l ++ attempt_by c t) start) c t ->
  exists d i, d <> c /\ path (run l start) = Some i /\ (pc (run l start) d = Held i \/ pc (run l start) d = Flocked i).
Proof. exact C34_filelock_fails_only_when_taken_partial_proof. Qed.
Print Assumptions C34_filelock_fails_only_when_taken_partial.

Example C34_filelock_fails_only_when_taken_example : ~ holds (run ([AOpen 0; AFlock 0] ++ attempt_by 1 6) start) 1 6 /\ pc (run [AOpen 0; AFlock 0] start) 1 = Idle.
Proof. exact C34_filelock_fails_only_when_taken_example_proof. Qed.

(** Violated: if the lock file is removed while the lock is held, a second process gets the lock too. *)
Theorem C34_filelock_unlink_refuted : exists l, Forall (fun a => match a with AJoin _ _ | ARelease _ _ => False | _ => True end) l /\
  holds (run l start) 0 5 /\ holds (run l start) 1 6.
Proof. exact C34_filelock_unlink_refuted_proof. Qed.
Print Assumptions C34_filelock_unlink_refuted.

(** Violated: two threads that share one object both get True from acquire(). *)
Theorem C34_filelock_shared_object_refuted : holds (run (attempt_by 0 5 ++ [AJoin 0 6]) start) 0 5 /\ holds (run (attempt_by 0 5 ++ [AJoin 0 6]) start) 0 6.
Proof. exact C34_filelock_shared_object_refuted_proof. Qed.
Print Assumptions C34_filelock_shared_object_refuted.

(** Violated: the first release() of a thread that acquired twice lets another process in. *)
Theorem C34_filelock_reentry_refuted :
  let l := attempt_by 0 5 ++ [AJoin 0 5; ARelease 0 5] ++ attempt_by 1 6 in holds (run l start) 0 5 /\ holds (run l start) 1 6.
Proof. exact C34_filelock_reentry_refuted_proof. Qed.
Print Assumptions C34_filelock_reentry_refuted.

(** acquire() answers True only when an attempt succeeded. *)
Theorem C34_filelock_acquire_true : forall l first blocking patience, acquire first blocking patience l = Ok true ->
  exists k, k <= patience /\ l = repeat Again k ++ Success :: skipn (S k) l.
Proof. exact C34_filelock_acquire_true_proof. Qed.
Print Assumptions C34_filelock_acquire_true.

Example C34_filelock_acquire_true_example : acquire true true 5 [Again; Again; Success] = Ok true /\ acquire true false 5 [Again; Success] = Ok false.
Proof. exact C34_filelock_acquire_true_example_proof. Qed.

(** Violated: the body of "with FileLock(...)" runs without the lock after the timeout. *)
Theorem C34_filelock_with_timeout_refuted : forall n, exists l, length l = S n /\ ~ In Success l /\
  acquire true true n l = Ok false /\ with_body_runs (acquire true true n l) = Ok true.
Proof. exact C34_filelock_with_timeout_refuted_proof. Qed.
Print Assumptions C34_filelock_with_timeout_refuted.

(** Violated: where the lock file cannot be opened, acquire() raises (UnboundLocalError) instead of a warning and
    letting everybody in. *)
Theorem C34_filelock_readonly_refuted : forall blocking n l, acquire true blocking n (OpenFails :: l) = Raise NameError.
Proof. exact C34_filelock_readonly_refuted_proof. Qed.
Print Assumptions C34_filelock_readonly_refuted.

(** Only one thread at a time is inside a MemoryLock, however often it enters and leaves. *)
Theorem C34_memorylock_mutual_exclusion : forall l t1 t2,
  0 < inside (mrun l mstart) t1 -> 0 < inside (mrun l mstart) t2 -> t1 = t2.
Proof. exact C34_memorylock_mutual_exclusion_proof. Qed.
Print Assumptions C34_memorylock_mutual_exclusion.

Example C34_memorylock_mutual_exclusion_example :
  inside (mrun [MAcquire 3; MAcquire 4; MAcquire 3; MRelease 3; MAcquire 4; MRelease 3; MAcquire 4] mstart) 4 = 1 /\
  inside (mrun [MAcquire 3; MAcquire 4; MAcquire 3; MRelease 3; MAcquire 4] mstart) 3 = 1.
Proof. exact C34_memorylock_mutual_exclusion_example_proof. Qed.

(** When no thread is inside, acquire() gets in at once; and when locked() is True somebody is inside. *)
Theorem C34_memorylock_free : forall l t, (forall u, inside (mrun l mstart) u = 0) ->
  inside (mrun (l ++ [MAcquire t]) mstart) t = 1 /\ flag (mrun (l ++ [MAcquire t]) mstart) = true /\ flag (mrun l mstart) = false.
Proof. exact C34_memorylock_free_proof. Qed.
Print Assumptions C34_memorylock_free.

Example C34_memorylock_free_example : forall u, inside (mrun [MAcquire 3; MRelease 3] mstart) u = 0.
Proof. exact C34_memorylock_free_example_proof. Qed.

(** Violated: locked() is False although the lock is held, after an inner release() or after another thread's
    timeout. *)
Theorem C34_memorylock_locked_refuted :
  (let m := mrun [MAcquire 3; MAcquire 3; MRelease 3] mstart in inside m 3 = 1 /\ flag m = false) /\
  (let m := mrun [MAcquire 3; MTimeout 4] mstart in inside m 3 = 1 /\ flag m = false /\ cache_enter m = Raise AssertionError).
Proof. exact C34_memorylock_locked_refuted_proof. Qed.
Print Assumptions C34_memorylock_locked_refuted.

(** Violated: acquire(blocking=False) never works. *)
Theorem C34_memorylock_nonblocking_refuted : macquire_nonblocking = Raise ValueError.
Proof. exact C34_memorylock_nonblocking_refuted_proof. Qed.
Print Assumptions C34_memorylock_nonblocking_refuted.
