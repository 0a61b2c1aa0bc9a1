From Coq Require Import List ZArith Bool Lia.
From Verif Require Import LibList M_Py M_Access S_Access P_Access.
Import ListNotations.
Open Scope Z_scope.

(** C100: what a fetch that returns has left in the cache, in the order of preference: the file as it was (young enough, or nothing newer known), else the local copy if it has three bytes or more, else what the first server delivered, else what the backup server delivered. *)
Lemma C100_fetch_gives_proof : forall now age size local r1 r2 t1 t2 s l, (0 < size)%nat -> fetch now age size local r1 r2 t1 t2 s = (Ok tt, l) ->
  exists c m, after s l = Some (c, m) /\
    ((s = Some (c, m) /\ l = [] /\ (now - m <= age * 86400 \/ (forall d t, local = Some (d, t) -> t <= m) /\ (r1 <> 0 -> r1 <= m) /\ (r1 = 0 -> r2 <= m \/ r2 = 0))) \/
     (m = now /\ usable local /\ exists t, local = Some (c, t)) \/
     (m = now /\ ~ usable local /\ taken t1 /\ c = delivered t1) \/
     (m = now /\ ~ usable local /\ ~ taken t1 /\ taken t2 /\ c = delivered t2)).
Proof.
  intros now age size local r1 r2 t1 t2 s l P.
  assert (N : forall d, fst (fetch_new now size local t1 t2) = Ok tt -> exists c m, last (snd (fetch_new now size local t1 t2)) d = Some (c, m) /\
     ((m = now /\ usable local /\ exists t, local = Some (c, t)) \/
     (m = now /\ ~ usable local /\ taken t1 /\ c = delivered t1) \/
     (m = now /\ ~ usable local /\ ~ taken t1 /\ taken t2 /\ c = delivered t2))).
  { intros d E. pose proof (fetch_new_ok now size local t1 t2 d P) as F. cbv zeta in F. rewrite E in F. destruct F as [[U [c [t [Q L]]]]|[[U [T L]]|[U [T [H [T2 L]]]]]].
    - exists c, now. split; [exact L|]. left. repeat split; auto. exists t. exact Q.
    - exists (delivered t1), now. split; [exact L|]. right. left. auto.
    - exists (delivered t2), now. split; [exact L|]. right. right. auto. }
  unfold after. destruct s as [[c0 m0]|]; cbn [fetch].
  - destruct (Z.ltb_spec (age * 86400) (now - m0)) as [Y|Y].
    + destruct (Z.ltb_spec m0 (Z.max match local with Some (_, t) => t | None => 0 end (if r1 =? 0 then r2 else r1))) as [X|X].
      * destruct (fetch_new now size local t1 t2) as [r l'] eqn:F. intro E. injection E as -> <-. destruct (N None eq_refl) as [c [m [A B]]]. exists c, m. rewrite last_cons. split; [exact A|]. right. exact B.
      * intro E. injection E as <-. exists c0, m0. split; [reflexivity|]. left. split; [reflexivity|]. split; [reflexivity|]. right. split; [|split].
        -- intros d t ->. lia.
        -- intro R. destruct (Z.eqb_spec r1 0); [contradiction|]. lia.
        -- intro R. destruct (Z.eqb_spec r1 0); [|contradiction]. left. lia.
    + intro E. injection E as <-. exists c0, m0. split; [reflexivity|]. left. auto.
  - intro E. assert (F : fst (fetch_new now size local t1 t2) = Ok tt) by (rewrite E; reflexivity). destruct (N None F) as [c [m [A B]]]. exists c, m. rewrite E in A. split; [exact A|]. right. exact B.
Qed.

(** C100: when every source failed in the ways the code knows (no local copy, refused, broken off, fewer than three bytes), a file that was not there is not there afterwards, the caller gets RuntimeError, and the next call starts from nothing. *)
Lemma C100_failure_proof : forall now age size local r1 r2 t1 t2 s, (0 < size)%nat -> s = None -> ~ usable local -> ~ taken t1 -> ~ throws t1 -> ~ taken t2 -> ~ throws t2 ->
  exists l, fetch now age size local r1 r2 t1 t2 s = (Raise RuntimeError, l) /\ after s l = None.
Proof.
  intros now age size local r1 r2 t1 t2 s P -> U A B C D. cbn [fetch]. pose proof (fetch_new_ok now size local t1 t2 None P) as F. cbv zeta in F. destruct (fetch_new now size local t1 t2) as [[u|e] l]; cbn [fst snd] in F.
  - destruct F as [[K _]|[[_ [K _]]|[_ [_ [_ [K _]]]]]]; contradiction.
  - destruct F as [_ [[l' E]|[[_ [l' E]]|[-> [_ [_ [_ [_ L]]]]]]]]; [destruct B; exists e, l'; exact E|destruct D; exists e, l'; exact E|]. exists l. split; [reflexivity|exact L].
Qed.

(** C100 (partial): if every transfer that ends has brought the whole file, a local copy is the whole file, and what was in the cache was the whole file, then what a successful fetch leaves is the whole file.  Missing: short transfers, exceptions and crashes (refuted below). *)
Lemma C100_whole_partial_proof : forall want now age size local r1 r2 t1 t2 s l, (0 < size)%nat ->
  whole want t1 -> whole want t2 -> (forall d t, local = Some (d, t) -> d = want) -> (forall d t, s = Some (d, t) -> d = want) ->
  fetch now age size local r1 r2 t1 t2 s = (Ok tt, l) -> exists m, after s l = Some (want, m).
Proof.
  intros want now age size local r1 r2 t1 t2 s l P W1 W2 WL WS E. destruct (C100_fetch_gives_proof _ _ _ _ _ _ _ _ _ _ P E) as [c [m [A B]]]; exists m; rewrite A. destruct B as [[S _]|[[_ [_ [t L]]]|[[_ [_ [[[k T] _] ->]]]|[_ [_ [_ [[[k T] _] ->]]]]]]].
  - rewrite (WS _ _ S). reflexivity.
  - rewrite (WL _ _ L). reflexivity.
  - rewrite (W1 k T). reflexivity.
  - rewrite (W2 k T). reflexivity.
Qed.

(** C100: a young file is not touched and nothing is asked of the servers; with no sources newer, an old one neither. *)
Lemma C100_young_proof : forall now age size local r1 r2 t1 t2 c m, now - m <= age * 86400 -> fetch now age size local r1 r2 t1 t2 (Some (c, m)) = (Ok tt, []).
Proof. intros now age size local r1 r2 t1 t2 c m Y. cbn [fetch]. destruct (Z.ltb_spec (age * 86400) (now - m)); [lia|reflexivity]. Qed.

(** C100, refuted: a transfer that ends early (the length announced is never compared with what came) is kept as the file, for every file and every place of the cut after the third byte; and for the next fourteen days every fetch returns it. *)
Lemma C100_short_refuted_proof : forall want k now age size r1 r2 t2, (0 < size)%nat -> 0 <= age -> (3 <= k < length want)%nat -> let got := firstn k want in
  exists l, fetch now age size None r1 r2 (Ends [(zlen got, got)]) t2 None = (Ok tt, l) /\ after None l = Some (got, now) /\ got <> want /\
    forall later r1' r2' u1 u2, later - now <= age * 86400 -> fetch later age size None r1' r2' u1 u2 (Some (got, now)) = (Ok tt, []).
Proof.
  intros want k now age size r1 r2 t2 P A K got. assert (G : length got = k) by (unfold got; rewrite firstn_length; lia).
  eexists. split; [cbn [fetch]; unfold fetch_new; cbn [local_copy then_if_not download received fold_right fst snd]; unfold zlen; rewrite G; destruct (Z.ltb_spec (Z.of_nat k + 0) 3); [lia|]; cbn [then_if_not fst snd]; reflexivity|].
  split; [unfold after; rewrite last_app; rewrite filled_last; cbn; rewrite app_nil_r; reflexivity|]. split; [intro E; rewrite E in G; lia|].
  intros later r1' r2' u1 u2 Y. apply C100_young_proof. exact Y.
Qed.

(** C100, refuted: if the process dies while the file is being fetched, or the transfer ends in an exception the code does not know, what was written so far stays, and the next fetch takes it for the file. *)
Lemma C100_crash_refuted_proof : forall want n now age size r1 r2 t2 e, (0 < size)%nat -> 0 <= age -> (n < length want)%nat ->
  let half := firstn n want in let rest := skipn n want in
  crash_state None (fetch now age size None r1 r2 (Ends [(zlen half, half); (zlen rest, rest)]) t2 None) (Some (half, now)) /\
  (exists l, fetch now age size None r1 r2 (Fails e [(zlen half, half)]) t2 None = (Raise e, l) /\ after None l = Some (half, now)) /\
  half <> want /\ forall later local' r1' r2' u1 u2, later - now <= age * 86400 -> fetch later age size local' r1' r2' u1 u2 (Some (half, now)) = (Ok tt, []).
Proof.
  intros want n now age size r1 r2 t2 e P A N half rest. assert (G : length half = n) by (unfold half; rewrite firstn_length; lia). split; [|split; [|split]].
  - right. cbn [fetch]. unfold fetch_new. cbn [local_copy then_if_not download received fold_right fst snd filled grow].
    destruct (zlen half + (zlen rest + 0) <? 3); cbn [then_if_not fst snd app]; destruct (download now t2) as [[[|]|x] l]; cbn [fst snd]; right; right; left; reflexivity.
  - eexists. split; [cbn [fetch]; unfold fetch_new; cbn [local_copy then_if_not download fst snd]; reflexivity|]. unfold after. rewrite last_app, filled_last. cbn. rewrite app_nil_r. reflexivity.
  - intro E. rewrite E in G. lia.
  - intros later local' r1' r2' u1 u2 Y. apply C100_young_proof. exact Y.
Qed.

(** C100, refuted: when the server's copy is newer than the file in the cache, the refresh puts the local copy there, however old that is; the file is then not newer in content but young again. *)
Lemma C100_refresh_refuted_proof : forall now age size old m local tl r1 r2 t1 t2, (0 < size)%nat -> 0 < r1 -> age * 86400 < now - m -> m < r1 -> tl < m -> (3 <= length local)%nat ->
  exists l, fetch now age size (Some (local, tl)) r1 r2 t1 t2 (Some (old, m)) = (Ok tt, l) /\ after (Some (old, m)) l = Some (local, now).
Proof.
  intros now age size old m local tl r1 r2 t1 t2 P R Y M T L. cbn [fetch]. destruct (Z.ltb_spec (age * 86400) (now - m)); [|lia]. destruct (Z.eqb_spec r1 0); [lia|]. destruct (Z.ltb_spec m (Z.max tl r1)); [|lia].
  pose proof (fetch_new_ok now size (Some (local, tl)) t1 t2 None P) as F. cbv zeta in F. assert (U : usable (Some (local, tl))) by (exists local, tl; auto).
  destruct (fetch_new now size (Some (local, tl)) t1 t2) as [[[]|e] l]; cbn [fst snd] in F.
  - destruct F as [[_ [c [t [E K]]]]|[[X _]|[X _]]]; [|contradiction|contradiction]. injection E as <- <-. exists (None :: l). split; [reflexivity|]. unfold after. rewrite last_cons. exact K.
  - destruct F as [X _]. contradiction.
Qed.

(** C100, refuted: a refresh whose download fails loses the copy there was, for every such file: the caller gets RuntimeError although the old file had been good enough a moment ago. *)
Lemma C100_lost_refuted_proof : forall now age size old m r1 r2 b1 b2, (0 < size)%nat -> 0 < r1 -> age * 86400 < now - m -> m < r1 ->
  exists l, fetch now age size None r1 r2 (Breaks b1) (Breaks b2) (Some (old, m)) = (Raise RuntimeError, l) /\ after (Some (old, m)) l = None.
Proof.
  intros now age size old m r1 r2 b1 b2 P R Y M. cbn [fetch]. destruct (Z.ltb_spec (age * 86400) (now - m)); [|lia]. destruct (Z.eqb_spec r1 0); [lia|]. destruct (Z.ltb_spec m (Z.max 0 r1)); [|lia].
  unfold fetch_new. cbn [local_copy then_if_not download fst snd]. eexists. split; [reflexivity|]. unfold after. rewrite last_cons, !last_app. reflexivity.
Qed.

(** C100: the hypotheses are met: the first server breaks off after two bytes, the backup server delivers the file in two blocks; the file passes through the half file. *)
Lemma C100_backup_example_proof : fetch 1000000 14 2 None 0 0 (Breaks [(2, [1; 2])]) (Ends [(2, [1; 2]); (2, [3; 4])]) None =
  (Ok tt, [None; Some ([], 1000000); Some ([1; 2], 1000000); None; Some ([], 1000000); Some ([1; 2], 1000000); Some ([1; 2; 3; 4], 1000000)]) /\
  taken (Ends [(2, [1; 2]); (2, [3; 4])]) /\ whole [1; 2; 3; 4] (Ends [(2, [1; 2]); (2, [3; 4])]) /\ whole [1; 2; 3; 4] (Breaks [(2, [1; 2])]) /\ ~ taken (Breaks [(2, [1; 2])]).
Proof.
  split; [reflexivity|]. split; [split; [eexists; reflexivity|cbn; lia]|]. split; [intros l E; reflexivity|]. split; [intros l E; discriminate|]. intros [[l E] _]. discriminate.
Qed.
(** C100: a local copy in blocks of two bytes; an old file with a newer server copy. *)
Lemma C100_local_example_proof : after None (snd (fetch 2000000 14 2 (Some ([5; 6; 7], 10)) 0 0 (Breaks []) (Breaks []) None)) = Some ([5; 6; 7], 2000000) /\
  after (Some ([9; 9; 9], 100)) (snd (fetch 2000000 14 2 (Some ([5; 6; 7], 10)) 1000 0 (Ends [(3, [8; 8; 8])]) (Breaks []) (Some ([9; 9; 9], 100)))) = Some ([5; 6; 7], 2000000) /\
  fetch 2000000 14 2 None 0 0 (Ends [(2, [1; 2])]) (Breaks []) None = (Raise RuntimeError, [None; Some ([], 2000000); Some ([1; 2], 2000000); None; Some ([], 2000000); None]).
Proof.
  repeat split.
Qed.
