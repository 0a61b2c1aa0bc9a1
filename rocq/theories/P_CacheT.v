(** Theorems about the caches. *)
From Coq Require Import List Arith ZArith Bool Lia Permutation.
From Verif Require Import M_Cache S_Cache P_Cache.
Import ListNotations.

(** What open(n, 'w') or open(n, 'a') finds before cleaning up. *)
Definition before_cleaning (o : fop) (es es1 : list entry) : Prop :=
  match o with
  | FOpenW n now _ => es1 = put_entry (mkE n 0 now false) es
  | FOpenA n now _ => es1 = match find_entry n es with Some _ => es | None => put_entry (mkE n 0 now false) es end
  | FOpenSub d sz now _ => es1 = put_entry (mkE d sz now true) es
  | _ => False
  end.
Lemma cleaning : forall limit o es es1 es', proper o -> before_cleaning o es es1 -> fstep limit o es = Done es' ->
  exists es2, Permutation es2 es1 /\ fmanage limit es2 = Done es'.
Proof.
  intros limit o es es1 es' P B H. destruct o as [n now order|n now order|d sz now order|n|n k now|n]; cbn [before_cleaning fstep proper] in *; try contradiction; subst es1.
  - exists (order (put_entry (mkE n 0 now false) es)). split; [apply P|]. destruct (find_entry n es) as [e|]; auto. destruct (e_dir e); [discriminate|auto].
  - destruct (find_entry n es) as [e|].
    + exists (order es). split; [apply P|]. destruct (e_dir e); [discriminate|auto].
    + exists (order (put_entry (mkE n 0 now false) es)). split; [apply P|auto].
  - exists (order (put_entry (mkE d sz now true) es)). split; [apply P|]. destruct (find_entry d es) as [e|]; auto. destruct (e_dir e); [auto|discriminate].
Qed.

(** When a file has been opened for writing the cache is within its limit or has a single entry; the oldest
    entries have gone, no more than necessary, and everything else is still there. *)
Lemma C32_filecache_clean_on_open_partial_proof : forall limit o es es1 es', proper o -> before_cleaning o es es1 -> fstep (Some limit) o es = Done es' ->
  exists gone, Permutation es1 (gone ++ es') /\
    ((total e_size es' <= limit)%Z \/ length es' <= 1) /\
    (forall g k, In g gone -> In k es' -> (e_mtime g <= e_mtime k)%Z) /\
    (forall l g, gone = l ++ [g] -> (limit < total e_size (g :: es'))%Z /\ 1 <= length es').
Proof.
  intros limit o es es1 es' P B H. destruct (cleaning _ _ _ _ _ P B H) as (es2 & P2 & M). apply fmanage_spec in M.
  destruct M as (gone & Q & D & O & M & _). exists gone. split; [rewrite <- P2; auto|auto].
Qed.
Definition three : list entry := [mkE 1 60 10 false; mkE 2 50 30 false; mkE 3 40 20 false].
Lemma C32_filecache_clean_on_open_example_proof : fstep (Some 95%Z) (FOpenA 4 40 (@rev entry)) three = Done [mkE 3 40 20 false; mkE 2 50 30 false; mkE 4 0 40 false] /\
  fstep (Some 60%Z) (FOpenA 4 40 (fun l => l)) three = Done [mkE 4 0 40 false; mkE 2 50 30 false].
Proof. split; reflexivity. Qed.

(** A file that is opened with 'w' is in the cache afterwards, if every other entry is older. *)
Lemma C32_filecache_new_file_kept_partial_proof : forall limit n now order es es', listing order -> (forall e, In e es -> (e_mtime e < now)%Z) ->
  fstep limit (FOpenW n now order) es = Done es' -> In (mkE n 0 now false) es'.
Proof.
  intros limit n now order es es' O OLD H. set (e := mkE n 0 now false).
  destruct (cleaning limit (FOpenW n now order) es (put_entry e es) es' O eq_refl H) as (es2 & P & M).
  assert (I : In e es2) by (apply (Permutation_in e (Permutation_sym P)); left; auto). destruct (in_split _ _ I) as (a & b & E). subst es2.
  unfold fmanage, manage in M. destruct limit as [l|]; [|inversion M; subst; auto].
  destruct (evict e_size e_mtime e_dir (length (a ++ e :: b)) l (a ++ e :: b)) as [x|] eqn:EV; inversion M; subst x.
  eapply evict_keeps; [|exact EV]. intros g G. cbn [e_mtime e].
  assert (P2 : Permutation (a ++ b) (filter (fun x => negb (e_name x =? e_name e)) es)). { apply Permutation_cons_inv with e. rewrite Permutation_middle. exact P. }
  apply (Permutation_in g P2) in G. apply filter_In in G. apply OLD. tauto.
Qed.
Lemma C32_filecache_new_file_kept_example_proof : fstep (Some 1%Z) (FOpenW 1 40 (fun l => l)) three = Done [mkE 1 0 40 false] /\ listing (fun l => l) /\ listing (@rev entry).
Proof. split; [reflexivity|]. split; intro l; [reflexivity|symmetry; apply Permutation_rev]. Qed.

(** Without a limit only remove() ever takes a file away. *)
Lemma C32_filecache_unlimited_proof : forall l es n, Forall proper l -> ~ In (FRemove n) l -> In n (names es) ->
  exists es', frun None l es = Done es' /\ In n (names es').
Proof. exact unlimited_run. Qed.
Lemma C32_filecache_unlimited_example_proof :
  frun None [FOpenA 4 40 (fun l => l); FWrite 4 1000000 41; FRemove 1; FOpenW 2 50 (@rev entry)] three = Done [mkE 3 40 20 false; mkE 4 1000000 41 false; mkE 2 0 50 false].
Proof. reflexivity. Qed.

(** As long as there are no directories in the cache, cleaning up always ends. *)
Lemma C32_filecache_terminates_partial_proof : forall limit l es, Forall proper l -> Forall flat l -> (forall e, In e es -> e_dir e = false) -> frun limit l es <> Forever.
Proof. exact flat_run. Qed.
Lemma C32_filecache_terminates_example_proof : (forall e, In e three -> e_dir e = false) /\ proper (FOpenA 4 40 (fun l => l)) /\ flat (FOpenA 4 40 (fun l => l)).
Proof. split; [|split; [intro l; reflexivity|exact I]]. intros e H. cbn in H. intuition; subst; reflexivity. Qed.

Ltac props := repeat (apply Forall_cons; [cbn [proper]; solve [lia | intro; reflexivity | exact I]|]); apply Forall_nil.
(** Writing to a file in the cache makes that file, and nothing else, larger by what was written; a file that is no
    longer there is not brought back. *)
Lemma C32_filecache_write_counts_proof : forall limit n k now es, exists es', fstep limit (FWrite n k now) es = Done es' /\
  (forall m, m <> n -> find_entry m es' = find_entry m es) /\
  find_entry n es' = option_map (fun e => mkE n (e_size e + k) now (e_dir e)) (find_entry n es).
Proof.
  intros limit n k now es. cbn [fstep]. destruct (find_entry n es) as [e|] eqn:E; eexists; (split; [reflexivity|]).
  - split; [|cbn; rewrite Nat.eqb_refl; reflexivity]. intros m M. unfold put_entry, find_entry. cbn [find e_name].
    destruct (Nat.eqb_spec n m); [congruence|]. clear E. induction es as [|x es IH]; [reflexivity|]. cbn [filter find].
    destruct (Nat.eqb_spec (e_name x) n) as [X|X]; cbn [negb find].
    + rewrite IH. destruct (Nat.eqb_spec (e_name x) m); [congruence|reflexivity].
    + destruct (e_name x =? m); auto.
  - split; auto.
Qed.
Lemma C32_filecache_write_counts_example_proof : fstep (Some 60%Z) (FWrite 3 25 99) three = Done [mkE 3 65 99 false; mkE 1 60 10 false; mkE 2 50 30 false].
Proof. reflexivity. Qed.
(** Violated: a file in a subdirectory makes the cache hang once the limit is exceeded and the directory is the oldest entry. *)
Lemma C32_filecache_hang_refuted_proof : exists l, Forall proper l /\ frun (Some 5000%Z) l [] = Forever.
Proof.
  exists [FOpenSub 1 4096 10 (fun l => l); FOpenW 2 20 (fun l => l); FWrite 2 3000 21; FOpenW 3 30 (fun l => l)].
  split; [props|reflexivity].
Qed.
(** Violated: after the write the cache is over its limit and stays so. *)
Lemma C32_filecache_after_write_refuted_proof : exists l es, Forall proper l /\ frun (Some 5000%Z) l [] = Done es /\ (5000 < total e_size es)%Z /\ 1 < length es.
Proof.
  exists [FOpenW 1 10 (fun l => l); FWrite 1 4000 11; FOpenW 2 20 (fun l => l); FWrite 2 4000 21; FOpenR 1], [mkE 2 4000 21 false; mkE 1 4000 11 false].
  split; [props|]. split; [reflexivity|]. cbn. lia.
Qed.
(** Violated: open(n, 'a') of the oldest file removes that file, and what is appended is lost. *)
Lemma C32_filecache_append_refuted_proof : exists l es, Forall proper l /\
  frun (Some 5000%Z) (l ++ [FOpenA 1 30 (fun l => l); FWrite 1 100 31]) [] = Done es /\ ~ In 1 (names es).
Proof.
  exists [FOpenW 1 10 (fun l => l); FWrite 1 4000 11; FOpenW 2 20 (fun l => l); FWrite 2 4000 21], [mkE 2 4000 21 false].
  split; [props|]. split; [reflexivity|]. cbn. intuition discriminate.
Qed.
(** Violated: with equal times (a coarse clock) the file just opened with 'w' may be the one that goes. *)
Lemma C32_filecache_tie_refuted_proof : exists es', fstep (Some 5000%Z) (FOpenW 2 10 (fun l => l)) [mkE 1 6000 10 false] = Done es' /\ ~ In 2 (names es').
Proof. exists [mkE 1 6000 10 false]. split; [reflexivity|]. cbn. intuition discriminate. Qed.
(** Violated: a failed open() keeps the lock. *)
Lemma C32_filecache_lock_leak_refuted_proof : forall limit n es, ~ In n (names es) -> open_leaves_lock (fstep limit (FOpenR n) es) = true.
Proof.
  intros limit n es H. cbn [fstep]. destruct (find_entry n es) as [e|] eqn:E; [|reflexivity]. apply find_entry_some in E. destruct E as [E1 E2].
  exfalso. apply H. unfold names. rewrite <- E2. apply in_map. auto.
Qed.

(** The same for the memory cache; the time of a file is that of its last flush(). *)
Lemma C32_memorycache_clean_partial_proof : forall limit c,
  exists gone, Permutation c (gone ++ mmanage (Some limit) c) /\
    ((total (fun x => Z.of_nat (length (f_data (snd x)))) (mmanage (Some limit) c) <= limit)%Z \/ length (mmanage (Some limit) c) <= 1) /\
    (forall g k, In g gone -> In k (mmanage (Some limit) c) -> (f_mtime (snd g) <= f_mtime (snd k))%Z) /\
    (forall l g, gone = l ++ [g] -> (limit < total (fun x => Z.of_nat (length (f_data (snd x)))) (g :: mmanage (Some limit) c))%Z /\ 1 <= length (mmanage (Some limit) c)).
Proof.
  intros limit c. unfold mmanage, manage.
  destruct (evict_some (fun x : nat * mfile => Z.of_nat (length (f_data (snd x)))) (fun x => f_mtime (snd x)) (fun _ => false) (length c) limit c) as [c' E]; [auto|].
  rewrite E. destruct (evict_spec _ _ _ (length c) limit c c' ltac:(lia) E) as (gone & P & D & O & M & _). exists gone. auto.
Qed.
Definition file_of (k : nat) (t : Z) : mfile := mkF (repeat 7%Z k) 0 true true true t.
Lemma C32_memorycache_clean_example_proof : mmanage (Some 90%Z) [(1, file_of 60 10); (2, file_of 50 30); (3, file_of 40 20)] = [(2, file_of 50 30); (3, file_of 40 20)].
Proof. reflexivity. Qed.
(** Without a limit open() takes no file away. *)
Lemma C32_memorycache_unlimited_proof : forall n k c m, lookup m c <> None -> lookup m (fst (copen None n k c)) <> None.
Proof.
  intros n k c m H. unfold copen. cbn [mmanage manage]. set (c1 := match lookup n c with Some _ => c | None => c ++ [(n, new_file)] end).
  assert (H1 : lookup m c1 <> None). { unfold c1. destruct (lookup n c); auto. rewrite lookup_app. destruct (lookup m c); [discriminate|congruence]. }
  assert (ST : forall f c0, lookup m c0 <> None -> lookup m (store n f c0) <> None). { intros f c0 HH. rewrite lookup_store. destruct (m =? n); auto. destruct (lookup m c0); congruence. }
  destruct k; cbn [writing].
  - destruct (mopen R _); cbn [fst]; apply ST; auto.
  - assert (H2 : lookup m (match lookup n c1 with Some f => store n (set_data f [] (f_pos f)) c1 | None => c1 end) <> None) by (destruct (lookup n c1); auto).
    destruct (mopen W _); cbn [fst]; apply ST; auto.
  - destruct (mopen A _); cbn [fst]; apply ST; auto.
Qed.
Lemma C32_memorycache_unlimited_example_proof : lookup 1 [(1, file_of 60 10)] <> None.
Proof. discriminate. Qed.
(** Violated: the memory cache throws away the file that is just being opened, because times are only set by flush(). *)
Lemma C32_memorycache_new_file_refuted_proof : exists l, lookup 2 (fst (mrun (Some 50%Z) l [])) = None /\ last (map snd l) (MRemove 2) = MOpen 2 W.
Proof.
  exists [(1%Z, MOpen 1 W); (2%Z, MCall 1 (Write (repeat 7%Z 60))); (3%Z, MCall 1 Flush); (4%Z, MClose 1); (5%Z, MOpen 2 W)]. split; reflexivity.
Qed.
(** Violated: getmtime() of a file in the memory cache raises TypeError. *)
Lemma C32_memorycache_getmtime_refuted_proof : forall n c, lookup n c <> None -> cgetmtime n c = Raise TypeError.
Proof. intros n c H. unfold cgetmtime. destruct (lookup n c); congruence. Qed.

(** A program that uses 'w' and 'r' as intended cannot tell the memory cache (without a limit) from ordinary files,
    whatever it writes, reads, seeks, truncates and removes, on any number of files, interleaved in any way; the only
    difference is that seek() returns nothing. *)
Lemma C33_memory_files_partial_proof : forall l, ordinary_run l no_files ->
  snd (mrun None l []) = expected l no_files /\
  forall n, cgetsize n (fst (mrun None l [])) = match content (fst (file_run l no_files)) n with Some d => Ok (Z.of_nat (length d)) | None => Raise OSError end /\
            option_map f_data (lookup n (fst (mrun None l []))) = content (fst (file_run l no_files)) n.
Proof.
  intros l O. destruct (run_ok l [] no_files agree_start O) as (c & E & AG). rewrite E. split; [reflexivity|]. intro n. cbn [fst].
  pose proof (AG n) as AN. unfold cgetsize. unfold agree1 in AN. destruct (lookup n c) as [f|]; destruct (content _ n) as [d|]; try contradiction; cbn; auto.
  destruct AN as [-> _]. auto.
Qed.
Definition session : list (Z * mop) :=
  [(1%Z, MOpen 1 W); (1%Z, MCall 1 (Write [65; 66; 10; 67]%Z)); (1%Z, MOpen 2 W); (1%Z, MCall 1 (Seek 1 0)); (1%Z, MCall 1 (Write [90]%Z)); (1%Z, MCall 2 (Seek 3 1)); (1%Z, MCall 2 (Write [1]%Z));
   (1%Z, MClose 1); (1%Z, MClose 2); (1%Z, MOpen 1 R); (1%Z, MCall 1 ReadLine); (1%Z, MCall 1 (Read (-1))); (1%Z, MCall 1 Tell); (1%Z, MClose 1); (1%Z, MOpen 2 R); (1%Z, MCall 2 (Read 9)); (1%Z, MClose 2)].
Lemma C33_memory_files_example_proof : ordinary_run session no_files /\
  snd (mrun None session []) = [Opened; Answer (Num 4); Opened; Answer Nothing; Answer (Num 1); Answer Nothing; Answer (Num 1); Closed; Closed; Opened; Answer (Bytes [65; 90; 10]%Z); Answer (Bytes [67]%Z);
    Answer (Num 4); Closed; Opened; Answer (Bytes [0; 0; 0; 1]%Z); Closed].
Proof. split; [cbn; repeat split; auto; try discriminate; try lia|reflexivity]. Qed.
(** Opening with 'w' empties the file and starts at 0, whatever was done before. *)
Lemma C33_truncates_proof : forall n c, (forall m f, lookup m c = Some f -> f_closed f = true /\ f_pos f = 0) ->
  exists f, snd (copen None n W c) = Ok f /\ lookup n (fst (copen None n W c)) = Some f /\ f_data f = [] /\ f_pos f = 0.
Proof.
  intros n c H. unfold copen. cbn [writing mmanage manage]. set (c1 := match lookup n c with Some _ => c | None => c ++ [(n, new_file)] end).
  assert (L1 : exists f, lookup n c1 = Some f /\ f_closed f = true /\ f_pos f = 0).
  { unfold c1. destruct (lookup n c) as [f|] eqn:L; [exists f; split; auto; apply (H n); auto|]. exists new_file. rewrite lookup_app, L, lookup_cons, Nat.eqb_refl. auto. }
  destruct L1 as (f & L1 & C & P). rewrite L1, lookup_store, Nat.eqb_refl, L1. unfold mopen. cbn [f_closed set_data]. rewrite C. eexists. split; [reflexivity|].
  cbn [fst]. rewrite lookup_store, Nat.eqb_refl, lookup_store, Nat.eqb_refl, L1. auto.
Qed.
Lemma C33_truncates_example_proof : forall m f, lookup m [(1, file_of 60 10)] = Some f -> f_closed f = true /\ f_pos f = 0.
Proof. intros m f H. rewrite lookup_cons in H. destruct (1 =? m); inversion H; auto. Qed.

(** Violated: opening in append mode overwrites the file from its start. *)
Lemma C33_append_refuted_proof :
  let l := [(1%Z, MOpen 1 W); (1%Z, MCall 1 (Write [1; 2; 3]%Z)); (1%Z, MClose 1); (1%Z, MOpen 1 A); (1%Z, MCall 1 (Write [9]%Z)); (1%Z, MClose 1)] in
  option_map f_data (lookup 1 (fst (mrun None l []))) = Some [9; 2; 3]%Z /\ content (fst (file_run l no_files)) 1 = Some [1; 2; 3; 9]%Z.
Proof. split; reflexivity. Qed.
(** Violated: iterating over an open file gives the first line only. *)
Lemma C33_iterate_refuted_proof :
  let l := [(1%Z, MOpen 1 W); (1%Z, MCall 1 (Write [65; 10; 66; 10; 67]%Z)); (1%Z, MClose 1); (1%Z, MOpen 1 R); (1%Z, MCall 1 Iterate)] in
  last (snd (mrun None l [])) Closed = Answer (Lines [[65; 10]%Z]) /\ last (snd (file_run l no_files)) Closed = Answer (Lines [[65; 10]; [66; 10]; [67]]%Z).
Proof. split; reflexivity. Qed.
(** Violated: reading a file that does not exist succeeds, and creates it. *)
Lemma C33_read_missing_refuted_proof : forall limit n c, lookup n c = None ->
  exists f, snd (copen limit n R c) = Ok f /\ lookup n (fst (copen limit n R c)) = Some f.
Proof.
  intros limit n c H. unfold copen. rewrite H. cbn [writing]. rewrite lookup_app, H, lookup_cons, Nat.eqb_refl. cbn. eexists. split; [reflexivity|].
  rewrite lookup_store, Nat.eqb_refl, lookup_app, H, lookup_cons, Nat.eqb_refl. auto.
Qed.
(** Violated: a file opened for reading can be written. *)
Lemma C33_write_protected_refuted_proof :
  let l := [(1%Z, MOpen 1 W); (1%Z, MCall 1 (Write [1; 2; 3]%Z)); (1%Z, MClose 1); (1%Z, MOpen 1 R); (1%Z, MCall 1 (Write [9]%Z)); (1%Z, MClose 1)] in
  option_map f_data (lookup 1 (fst (mrun None l []))) = Some [9; 2; 3]%Z.
Proof. reflexivity. Qed.
(** Violated: opening a file that is open raises, and closes the handle in use. *)
Lemma C33_nested_open_refuted_proof :
  snd (mrun None [(1%Z, MOpen 1 W); (1%Z, MCall 1 (Write [1]%Z)); (1%Z, MOpen 1 R); (1%Z, MCall 1 (Write [2]%Z))] []) = [Opened; Answer (Num 1); OpenErr OSError; Answer (Err OSError)].
Proof. reflexivity. Qed.
(** Violated: truncate() does not extend a file, and works on a closed one. *)
Lemma C33_truncate_refuted_proof :
  (let l := [(1%Z, MOpen 1 W); (1%Z, MCall 1 (Truncate (Some 4)%Z)); (1%Z, MClose 1)] in
   option_map f_data (lookup 1 (fst (mrun None l []))) = Some [] /\ content (fst (file_run l no_files)) 1 = Some [0; 0; 0; 0]%Z) /\
  snd (mrun None [(1%Z, MOpen 1 W); (1%Z, MClose 1); (1%Z, MCall 1 (Truncate (Some 0)%Z))] []) = [Opened; Closed; Answer (Num 0)].
Proof. repeat split; reflexivity. Qed.
