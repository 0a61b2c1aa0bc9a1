(** Theorems about the locks. *)
From Coq Require Import List Arith Bool Lia.
From Verif Require Import M_Lock S_Lock P_Lock.
Import ListNotations.

(** Whatever any number of processes and threads do, two holders of the lock are one and the same, as long as the
    lock file is not removed under a holder, locked objects are not shared, and holders do their own releases.
    Crashes may happen anywhere. *)
Lemma C34_filelock_mutual_exclusion_partial_proof : forall l c1 t1 c2 t2, careful l start ->
  holds (run l start) c1 t1 -> holds (run l start) c2 t2 -> c1 = c2 /\ t1 = t2.
Proof. exact exclusion. Qed.
(** Two objects race, the first wins, crashes; the file is removed; the second wins with a new file. *)
Lemma C34_filelock_mutual_exclusion_example_proof :
  let l := [AOpen 0; AOpen 1; AFlock 1; AFlock 0; ACheck 1 7; ACrash 1; AUnlink; AOpen 0; AFlock 0; ACheck 0 5] in
  careful l start /\ holds (run l start) 0 5.
Proof.
  cbv zeta. split; [|vm_compute; auto]. cbn [careful]. repeat split; auto. intros c t H. unfold holds in H. cbn in H. unfold upd in H. destruct (c =? 1); destruct H.
Qed.

(** Even if the lock file is removed at any time and objects are shared, at most one object is locked per file. *)
Lemma C34_filelock_one_per_file_proof : forall l i c1 c2, pc (run l start) c1 = Held i -> pc (run l start) c2 = Held i -> c1 = c2.
Proof. exact per_file. Qed.
Lemma C34_filelock_one_per_file_example_proof :
  let s := run (attempt_by 0 5 ++ [AUnlink] ++ attempt_by 1 6) start in pc s 0 = Held 0 /\ pc s 1 = Held 1.
Proof. vm_compute. auto. Qed.

(** When the holder releases the lock, or its process dies, the next attempt succeeds. *)
Lemma C34_filelock_release_lets_in_partial_proof : forall l a c1 t1 c2 t2, careful l start ->
  holds (run l start) c1 t1 -> a = ARelease c1 t1 \/ a = ACrash c1 -> pc (run l start) c2 = Idle \/ c2 = c1 ->
  holds (run (l ++ a :: attempt_by c2 t2) start) c2 t2.
Proof. exact release_then. Qed.
Lemma C34_filelock_release_lets_in_example_proof :
  holds (run (attempt_by 0 5) start) 0 5 /\ ~ holds (run (attempt_by 0 5 ++ attempt_by 1 6) start) 1 6 /\
  holds (run (attempt_by 0 5 ++ ACrash 0 :: attempt_by 1 6) start) 1 6.
Proof. vm_compute. intuition. Qed.

(** An attempt nobody interferes with fails only if somebody else has the lock or is about to. *)
Lemma C34_filelock_fails_only_when_taken_partial_proof : forall l c t, careful l start -> pc (run l start) c = Idle ->
  ~ holds (run (l ++ attempt_by c t) start) c t ->
  exists d i, d <> c /\ path (run l start) = Some i /\ (pc (run l start) d = Held i \/ pc (run l start) d = Flocked i).
Proof. exact attempt_fails. Qed.
Lemma C34_filelock_fails_only_when_taken_example_proof : ~ holds (run ([AOpen 0; AFlock 0] ++ attempt_by 1 6) start) 1 6 /\ pc (run [AOpen 0; AFlock 0] start) 1 = Idle.
Proof. vm_compute. intuition. Qed.

(** Violated: if the lock file is removed while the lock is held, a second process gets the lock too. *)
Lemma C34_filelock_unlink_refuted_proof : exists l, Forall (fun a => match a with AJoin _ _ | ARelease _ _ => False | _ => True end) l /\
  holds (run l start) 0 5 /\ holds (run l start) 1 6.
Proof. exists (attempt_by 0 5 ++ [AUnlink] ++ attempt_by 1 6). split; [repeat constructor|]. vm_compute. auto. Qed.
(** Violated: two threads that share one object both get True from acquire(). *)
Lemma C34_filelock_shared_object_refuted_proof : holds (run (attempt_by 0 5 ++ [AJoin 0 6]) start) 0 5 /\ holds (run (attempt_by 0 5 ++ [AJoin 0 6]) start) 0 6.
Proof. vm_compute. auto. Qed.
(** Violated: the first release() of a thread that acquired twice lets another process in. *)
Lemma C34_filelock_reentry_refuted_proof :
  let l := attempt_by 0 5 ++ [AJoin 0 5; ARelease 0 5] ++ attempt_by 1 6 in holds (run l start) 0 5 /\ holds (run l start) 1 6.
Proof. vm_compute. auto. Qed.
(** acquire() answers True only when an attempt succeeded. *)
Lemma C34_filelock_acquire_true_proof : forall l first blocking patience, acquire first blocking patience l = Ok true ->
  exists k, k <= patience /\ l = repeat Again k ++ Success :: skipn (S k) l.
Proof.
  induction l as [|a l IH]; intros first blocking patience H; [discriminate H|]. cbn in H. destruct a; try discriminate.
  - exists 0. split; [lia|]. reflexivity.
  - destruct blocking; [|discriminate]. destruct patience as [|p]; [discriminate|]. destruct (IH _ _ _ H) as (k & K1 & K2). exists (S k). split; [lia|].
    cbn [repeat app]. f_equal. exact K2.
  - destruct first; discriminate.
Qed.
Lemma C34_filelock_acquire_true_example_proof : acquire true true 5 [Again; Again; Success] = Ok true /\ acquire true false 5 [Again; Success] = Ok false.
Proof. split; reflexivity. Qed.
(** Violated: the body of "with FileLock(...)" runs without the lock after the timeout. *)
Lemma C34_filelock_with_timeout_refuted_proof : forall n, exists l, length l = S n /\ ~ In Success l /\
  acquire true true n l = Ok false /\ with_body_runs (acquire true true n l) = Ok true.
Proof.
  intro n. exists (repeat Again (S n)). split; [apply repeat_length|]. split; [intro H; apply repeat_spec in H; discriminate|].
  assert (A : forall f, acquire f true n (repeat Again (S n)) = Ok false). { induction n as [|n IH]; intro f; [reflexivity|]. exact (IH false). }
  rewrite A. auto.
Qed.
(** Violated: where the lock file cannot be opened, acquire() raises (UnboundLocalError) instead of a warning and
    letting everybody in. *)
Lemma C34_filelock_readonly_refuted_proof : forall blocking n l, acquire true blocking n (OpenFails :: l) = Raise NameError.
Proof. reflexivity. Qed.

(** Only one thread at a time is inside a MemoryLock, however often it enters and leaves. *)
Lemma C34_memorylock_mutual_exclusion_proof : forall l t1 t2,
  0 < inside (mrun l mstart) t1 -> 0 < inside (mrun l mstart) t2 -> t1 = t2.
Proof.
  intros l t1 t2 H1 H2. destruct (minv_run l _ minv_start) as [I _]. destruct (owner (mrun l mstart)) as [[o n]|].
  - destruct I as (_ & _ & I). destruct (Nat.eq_dec t1 o); [|rewrite I in H1 by auto; lia]. destruct (Nat.eq_dec t2 o); [congruence|rewrite I in H2 by auto; lia].
  - rewrite I in H1. lia.
Qed.
Lemma C34_memorylock_mutual_exclusion_example_proof :
  inside (mrun [MAcquire 3; MAcquire 4; MAcquire 3; MRelease 3; MAcquire 4; MRelease 3; MAcquire 4] mstart) 4 = 1 /\
  inside (mrun [MAcquire 3; MAcquire 4; MAcquire 3; MRelease 3; MAcquire 4] mstart) 3 = 1.
Proof. split; reflexivity. Qed.
(** When no thread is inside, acquire() gets in at once; and when locked() is True somebody is inside. *)
Lemma C34_memorylock_free_proof : forall l t, (forall u, inside (mrun l mstart) u = 0) ->
  inside (mrun (l ++ [MAcquire t]) mstart) t = 1 /\ flag (mrun (l ++ [MAcquire t]) mstart) = true /\ flag (mrun l mstart) = false.
Proof.
  intros l t H. destruct (minv_run l _ minv_start) as [I F]. unfold mrun in *. rewrite fold_left_app. cbn [fold_left]. set (m := fold_left _ l mstart) in *.
  unfold mstep. destruct (owner m) as [[o n]|]; [destruct I as (I1 & I2 & _); rewrite H in I1; lia|]. cbn [inside flag]. rewrite upd_same, H.
  repeat split; auto. destruct (flag m); auto. exfalso. apply F; auto.
Qed.
Lemma C34_memorylock_free_example_proof : forall u, inside (mrun [MAcquire 3; MRelease 3] mstart) u = 0.
Proof. intro u. cbn. unfold upd. destruct (u =? 3); reflexivity. Qed.
(** Violated: locked() is False although the lock is held, after an inner release() or after another thread's
    timeout. *)
Lemma C34_memorylock_locked_refuted_proof :
  (let m := mrun [MAcquire 3; MAcquire 3; MRelease 3] mstart in inside m 3 = 1 /\ flag m = false) /\
  (let m := mrun [MAcquire 3; MTimeout 4] mstart in inside m 3 = 1 /\ flag m = false /\ cache_enter m = Raise AssertionError).
Proof. cbn. auto. Qed.
(** Violated: acquire(blocking=False) never works. *)
Lemma C34_memorylock_nonblocking_refuted_proof : macquire_nonblocking = Raise ValueError.
Proof. reflexivity. Qed.
