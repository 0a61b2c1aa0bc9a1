(** Property theorems (generated from P_AccessT.v by tools/gen_theorems.py). *)
From Coq Require Import List ZArith Bool Lia.
From Verif Require Import LibList M_Py M_Access S_Access P_Access P_AccessT.
Import ListNotations.
Open Scope Z_scope.

(** C100: what a fetch that returns has left in the cache, in the order of preference: the file as it was (young enough, or nothing newer known), else the local copy if it has three bytes or more, else what the first server delivered, else what the backup server delivered. *)
Theorem C100_fetch_gives : forall now age size local r1 r2 t1 t2 s l, (0 < size)%nat -> fetch now age size local r1 r2 t1 t2 s = (Ok tt, l) ->
  exists c m, after s l = Some (c, m) /\
    ((s = Some (c, m) /\ l = [] /\ (now - m <= age * 86400 \/ (forall d t, local = Some (d, t) -> t <= m) /\ (r1 <> 0 -> r1 <= m) /\ (r1 = 0 -> r2 <= m \/ r2 = 0))) \/
     (m = now /\ usable local /\ exists t, local = Some (c, t)) \/
     (m = now /\ ~ usable local /\ taken t1 /\ c = delivered t1) \/
     (m = now /\ ~ usable local /\ ~ taken t1 /\ taken t2 /\ c = delivered t2)).
Proof. exact C100_fetch_gives_proof. Qed.
Print Assumptions C100_fetch_gives.

(** C100: when every source failed in the ways the code knows (no local copy, refused, broken off, fewer than three bytes), a file that was not there is not there afterwards, the caller gets RuntimeError, and the next call starts from nothing. *)
Theorem C100_failure : forall now age size local r1 r2 t1 t2 s, (0 < size)%nat -> s = None -> ~ usable local -> ~ taken t1 -> ~ throws t1 -> ~ taken t2 -> ~ throws t2 ->
  exists l, fetch now age size local r1 r2 t1 t2 s = (Raise RuntimeError, l) /\ after s l = None.
Proof. exact C100_failure_proof. Qed.
Print Assumptions C100_failure.

(** C100 (partial): if every transfer that ends has brought the whole file, a local copy is the whole file, and what was in the cache was the whole file, then what a successful fetch leaves is the whole file.  Missing: short transfers, exceptions and crashes (refuted below). *)
Theorem C100_whole_partial : forall want now age size local r1 r2 t1 t2 s l, (0 < size)%nat ->
  whole want t1 -> whole want t2 -> (forall d t, local = Some (d, t) -> d = want) -> (forall d t, s = Some (d, t) -> d = want) ->
  fetch now age size local r1 r2 t1 t2 s = (Ok tt, l) -> exists m, after s l = Some (want, m).
Proof. exact C100_whole_partial_proof. Qed.
Print Assumptions C100_whole_partial.

(** C100: a young file is not touched and nothing is asked of the servers; with no sources newer, an old one neither. *)
Theorem C100_young : forall now age size local r1 r2 t1 t2 c m, now - m <= age * 86400 -> fetch now age size local r1 r2 t1 t2 (Some (c, m)) = (Ok tt, []).
Proof. exact C100_young_proof. Qed.
Print Assumptions C100_young.

(** C100, refuted: a transfer that ends early (the length announced is never compared with what came) is kept as the file, for every file and every place of the cut after the third byte; and for the next fourteen days every fetch returns it. *)
Theorem C100_short_refuted : forall want k now age size r1 r2 t2, (0 < size)%nat -> 0 <= age -> (3 <= k < length want)%nat -> let got := firstn k want in
  exists l, fetch now age size None r1 r2 (Ends [(zlen got, got)]) t2 None = (Ok tt, l) /\ after None l = Some (got, now) /\ got <> want /\
    forall later r1' r2' u1 u2, later - now <= age * 86400 -> fetch later age size None r1' r2' u1 u2 (Some (got, now)) = (Ok tt, []).
Proof. exact C100_short_refuted_proof. Qed.
Print Assumptions C100_short_refuted.

(** C100, refuted: if the process dies while the file is being fetched, or the transfer ends in an exception the code does not know, what was written so far stays, and the next fetch takes it for the file. *)
Theorem C100_crash_refuted : forall want n now age size r1 r2 t2 e, (0 < size)%nat -> 0 <= age -> (n < length want)%nat ->
  let half := firstn n want in let rest := skipn n want in
  crash_state None (fetch now age size None r1 r2 (Ends [(zlen half, half); (zlen rest, rest)]) t2 None) (Some (half, now)) /\
  (exists l, fetch now age size None r1 r2 (Fails e [(zlen half, half)]) t2 None = (Raise e, l) /\ after None l = Some (half, now)) /\
  half <> want /\ forall later local' r1' r2' u1 u2, later - now <= age * 86400 -> fetch later age size local' r1' r2' u1 u2 (Some (half, now)) = (Ok tt, []).
Proof. exact C100_crash_refuted_proof. Qed.
Print Assumptions C100_crash_refuted.

(** C100, refuted: when the server's copy is newer than the file in the cache, the refresh puts the local copy there, however old that is; the file is then not newer in content but young again. *)
Theorem C100_refresh_refuted : forall now age size old m local tl r1 r2 t1 t2, (0 < size)%nat -> 0 < r1 -> age * 86400 < now - m -> m < r1 -> tl < m -> (3 <= length local)%nat ->
  exists l, fetch now age size (Some (local, tl)) r1 r2 t1 t2 (Some (old, m)) = (Ok tt, l) /\ after (Some (old, m)) l = Some (local, now).
Proof. exact C100_refresh_refuted_proof. Qed.
Print Assumptions C100_refresh_refuted.

(** C100, refuted: a refresh whose download fails loses the copy there was, for every such file: the caller gets RuntimeError although the old file had been good enough a moment ago. *)
Theorem C100_lost_refuted : forall now age size old m r1 r2 b1 b2, (0 < size)%nat -> 0 < r1 -> age * 86400 < now - m -> m < r1 ->
  exists l, fetch now age size None r1 r2 (Breaks b1) (Breaks b2) (Some (old, m)) = (Raise RuntimeError, l) /\ after (Some (old, m)) l = None.
Proof. exact C100_lost_refuted_proof. Qed.
Print Assumptions C100_lost_refuted.

(** C100: the hypotheses are met: the first server breaks off after two bytes, the backup server delivers the file in two blocks; the file passes through the half file. *)
Example C100_backup_example : fetch 1000000 14 2 None 0 0 (Breaks [(2, [1; 2])]) (Ends [(2, [1; 2]); (2, [3; 4])]) None =
  (Ok tt, [None; Some ([], 1000000); Some ([1; 2], 1000000); None; Some ([], 1000000); Some ([1; 2], 1000000); Some ([1; 2; 3; 4], 1000000)]) /\
  taken (Ends [(2, [1; 2]); (2, [3; 4])]) /\ whole [1; 2; 3; 4] (Ends [(2, [1; 2]); (2, [3; 4])]) /\ whole [1; 2; 3; 4] (Breaks [(2, [1; 2])]) /\ ~ taken (Breaks [(2, [1; 2])]).
Proof. exact C100_backup_example_proof. Qed.

(** C100: a local copy in blocks of two bytes; an old file with a newer server copy. *)
Example C100_local_example : after None (snd (fetch 2000000 14 2 (Some ([5; 6; 7], 10)) 0 0 (Breaks []) (Breaks []) None)) = Some ([5; 6; 7], 2000000) /\
  after (Some ([9; 9; 9], 100)) (snd (fetch 2000000 14 2 (Some ([5; 6; 7], 10)) 1000 0 (Ends [(3, [8; 8; 8])]) (Breaks []) (Some ([9; 9; 9], 100)))) = Some ([5; 6; 7], 2000000) /\
  fetch 2000000 14 2 None 0 0 (Ends [(2, [1; 2])]) (Breaks []) None = (Raise RuntimeError, [None; Some ([], 2000000); Some ([1; 2], 2000000); None; Some ([], 2000000); None]).
Proof. exact C100_local_example_proof. Qed.
