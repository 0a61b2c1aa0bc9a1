(** Proofs about _ready_file. *)
From Coq Require Import List ZArith Bool Lia.
From Verif Require Import M_LdpReady S_Drx S_LdpReady P_Drx LibBytes LibList.
Import ListNotations.
Open Scope Z_scope.
Ltac Zify.zify_post_hook ::= Z.div_mod_to_equations.

Ltac feq := match goal with |- (mkFile ?d ?a, ?x) = (mkFile ?d ?b, ?x) => let E := fresh in assert (E : a = b) by lia; rewrite E; reflexivity end.
Lemma seek1 : forall d data p, 0 <= p + d -> fst (f_seek d 1 (mkFile data p)) = mkFile data (p + d).
Proof. intros d data p H. unfold f_seek. cbn [f_pos f_data]. change (1 =? 0) with false. change (1 =? 1) with true. cbv iota. destruct (Z.ltb_spec (p + d) 0); [lia|]. auto. Qed.
Lemma seek0 : forall d data p, 0 <= d -> fst (f_seek d 0 (mkFile data p)) = mkFile data d.
Proof. intros d data p H. unfold f_seek. cbn [f_pos f_data]. change (0 =? 0) with true. cbv iota. destruct (Z.ltb_spec d 0); [lia|]. auto. Qed.
Section R.
Context (size : Z) (fill : list Z -> list Z) (kind : dframe -> bool) (e : bool) (lo hi : Z) (bts : recorded -> list Z).
Let reader := read_frame_gen size fill.
Context (SZ : 32 < size < 1000000).
Context (BL : forall r, well_formed lo hi r -> zlen (bts r) = size).
Context (RD : forall a c r, well_formed lo hi r ->
  reader (mkFile (a ++ bts r ++ c) (zlen a)) = (mkFile (a ++ bts r ++ c) (zlen a + size), Got (frame_of e r))).
Context (KD : forall r, well_formed lo hi r -> kind (frame_of e r) = true).

Lemma raw_len : forall data i, 0 <= i -> i + size <= zlen data -> f_read size (mkFile data i) = (mkFile data (i + size), slice i size data).
Proof.
  intros data i H0 H. unfold f_read. cbn [f_data f_pos]. destruct (Z.ltb_spec size 0); [lia|]. fold (slice i size data).
  rewrite slice_zlen by lia. auto.
Qed.
Lemma reader_bad : forall data i, bytes_ok data -> 0 <= i -> i + size <= zlen data -> ~ sync_at data i ->
  reader (mkFile data i) = (mkFile data (i + size), BadSync i).
Proof.
  intros data i B H0 H NS. unfold reader, read_frame_gen. rewrite raw_len by auto. rewrite slice_zlen by lia. rewrite Z.eqb_refl. cbn [negb].
  assert (V : valid_sync (slice i size data) = false).
  { unfold valid_sync. apply Z.eqb_neq. intro E. apply NS. unfold sync_at.
    assert (X : slice 0 4 (slice i size data) = slice i 4 data).
    { unfold slice. rewrite (zdrop_0 0) by lia. rewrite ztake_ztake. f_equal. lia. }
    rewrite X in E. assert (L4 : zlen (slice i 4 data) = 4) by (apply slice_zlen; lia).
    rewrite <- (le_le_val (slice i 4 data)) by (apply slice_ok; auto). rewrite E.
    replace (length (slice i 4 data)) with 4%nat by (unfold zlen in L4; lia). reflexivity. }
  rewrite V. cbn [negb f_tell f_pos]. do 2 f_equal. lia.
Qed.
Lemma reader_eof : forall data i, 0 <= i -> zlen data < i + size -> exists p, reader (mkFile data i) = (mkFile data p, AtEOF).
Proof.
  intros data i H0 H. unfold reader, read_frame_gen, f_read. cbn [f_data f_pos]. destruct (Z.ltb_spec size 0); [lia|].
  eexists. rewrite zlen_ztake, zlen_zdrop by lia. destruct (Z.eqb_spec (Z.min size (Z.max 0 (zlen data - i))) size); [lia|]. reflexivity.
Qed.

Lemma align_junk : forall fuel junk r rest i, bytes_ok (junk ++ bts r ++ rest) -> well_formed lo hi r -> starts_data r ->
  no_sync junk (bts r ++ rest) -> 0 <= i <= zlen junk -> (Z.to_nat (zlen junk - i) < fuel)%nat ->
  align size reader kind fuel (mkFile (junk ++ bts r ++ rest) i) = (mkFile (junk ++ bts r ++ rest) (zlen junk), Ok (frame_of e r)).
Proof.
  induction fuel as [|fuel IH]; intros junk r rest i B W SD NS Hi HF; [lia|]. cbn [align].
  pose proof (BL r W) as LB. pose proof (zlen_nonneg rest).
  destruct (Z.eq_dec i (zlen junk)) as [->|NE].
  - rewrite (RD junk rest r W). unfold good_start. rewrite (KD r W). destruct SD as [S1 S2]. cbn [frame_of d_dec d_tag].
    destruct (Z.eqb_spec (r_dec r) 0); [contradiction|]. destruct (Z.ltb_spec 61849368000000000 (r_tag r)); [|lia]. cbn [andb negb].
    pose proof (zlen_nonneg junk). rewrite seek1 by lia. feq.
  - rewrite reader_bad; auto; try lia.
    + rewrite seek1 by lia.
      replace (i + size + (- size + 1)) with (i + 1) by lia. apply IH; auto; lia.
    + rewrite !zlen_app. lia.
    + apply NS. lia.
Qed.
Lemma align_none : forall fuel data i, bytes_ok data -> (forall j, i <= j -> j + size <= zlen data -> ~ sync_at data j) -> 0 <= i ->
  (Z.to_nat (zlen data - i) < fuel)%nat -> exists p, align size reader kind fuel (mkFile data i) = (mkFile data p, Raise EOFError).
Proof.
  induction fuel as [|fuel IH]; intros data i B NS H0 HF; [lia|]. cbn [align]. destruct (Z.le_gt_cases (i + size) (zlen data)) as [LE|GT].
  - rewrite reader_bad; auto; [|apply NS; lia]. rewrite seek1 by lia. replace (i + size + (- size + 1)) with (i + 1) by lia.
    apply IH; auto; try lia. intros j Hj. apply NS. lia.
  - destruct (reader_eof data i H0 GT) as [p ->]. exists p. auto.
Qed.

Definition frames (rs : list recorded) : list Z := concat (map bts rs).
Lemma frames_len : forall rs, Forall (well_formed lo hi) rs -> zlen (frames rs) = size * zlen rs.
Proof.
  induction 1 as [|r rs W F IH]; [cbn; lia|]. unfold frames in *. cbn [map concat]. rewrite zlen_app, IH, BL, zlen_cons by auto. lia.
Qed.
Lemma split_nth : forall (rs : list recorded) d j, 0 <= j < zlen rs -> rs = ztake j rs ++ znth d j rs :: zdrop (j + 1) rs.
Proof.
  intros rs d j H. rewrite <- (ztake_zdrop j rs) at 1. f_equal. revert j H. induction rs as [|r rs IH]; intros j H; [cbn in H; lia|].
  rewrite zlen_cons in H. destruct (Z.eq_dec j 0) as [->|NE]; [reflexivity|].
  unfold zdrop, znth in *. destruct (Z.ltb_spec j 0); [lia|]. specialize (IH (j - 1) ltac:(lia)). destruct (Z.ltb_spec (j - 1) 0); [lia|].
  replace (Z.to_nat j) with (S (Z.to_nat (j - 1))) by lia. replace (Z.to_nat (j + 1)) with (S (Z.to_nat (j - 1 + 1))) by lia. cbn [skipn nth]. auto.
Qed.
Lemma reader_frame : forall junk rs tail d j, Forall (well_formed lo hi) rs -> 0 <= j < zlen rs ->
  reader (mkFile (junk ++ frames rs ++ tail) (zlen junk + j * size)) =
    (mkFile (junk ++ frames rs ++ tail) (zlen junk + j * size + size), Got (frame_of e (znth d j rs))).
Proof.
  intros junk rs tail d j F H. pose proof (split_nth rs d j H) as S. set (r := znth d j rs) in *.
  assert (W : well_formed lo hi r). { rewrite Forall_forall in F. apply F. rewrite S. apply in_app_iff. right. left. auto. }
  assert (F1 : Forall (well_formed lo hi) (ztake j rs)). { rewrite <- (ztake_zdrop j rs) in F. apply Forall_app in F. tauto. }
  assert (E : junk ++ frames rs ++ tail = (junk ++ frames (ztake j rs)) ++ bts r ++ (frames (zdrop (j + 1) rs) ++ tail)).
  { unfold frames. rewrite S at 1. rewrite map_app, concat_app. cbn [map concat]. rewrite <- !app_assoc. auto. }
  assert (P : zlen junk + j * size = zlen (junk ++ frames (ztake j rs))).
  { rewrite zlen_app, frames_len by auto. rewrite zlen_ztake by lia. rewrite Z.min_l by lia. lia. }
  rewrite E, P. apply RD. auto.
Qed.

Lemma ahead_eq : forall mb, checkpoint size mb = ahead size mb. Proof. reflexivity. Qed.
Lemma gap_check_near : forall junk rs tail r0 d mb, Forall (well_formed lo hi) rs ->
  (mb * 1048576 < zlen (junk ++ frames rs ++ tail) ->
    0 <= ahead size mb < zlen rs /\ sample_time (znth d (ahead size mb) rs) - sample_time r0 <= 300 * 196000000) ->
  gap_check size reader (frame_of e r0) (mkFile (junk ++ frames rs ++ tail) (zlen junk)) mb = (mkFile (junk ++ frames rs ++ tail) (zlen junk), Ok false).
Proof.
  intros junk rs tail r0 d mb F H. unfold gap_check. cbn [f_data]. change (1024 ^ 2) with 1048576.
  destruct (Z.ltb_spec (mb * 1048576) (zlen (junk ++ frames rs ++ tail))) as [L|L]; auto. destruct (H L) as [H1 H2].
  rewrite ahead_eq. pose proof (zlen_nonneg junk). rewrite seek1 by nia.
  rewrite (reader_frame junk rs tail d) by auto. unfold far, fS, sample_time in *. cbn [frame_of d_tag d_toff].
  destruct (Z.ltb_spec (300 * 196000000) (r_tag (znth d (ahead size mb) rs) - r_toff (znth d (ahead size mb) rs) - (r_tag r0 - r_toff r0))); [lia|]. auto.
Qed.
Lemma gap_check_far : forall junk rs tail r0 d mb, Forall (well_formed lo hi) rs ->
  mb * 1048576 < zlen (junk ++ frames rs ++ tail) ->
  0 <= ahead size mb < zlen rs -> 300 * 196000000 < sample_time (znth d (ahead size mb) rs) - sample_time r0 ->
  gap_check size reader (frame_of e r0) (mkFile (junk ++ frames rs ++ tail) (zlen junk)) mb =
    (mkFile (junk ++ frames rs ++ tail) (zlen junk + ahead size mb * size), Ok true).
Proof.
  intros junk rs tail r0 d mb F L H1 H2. unfold gap_check. cbn [f_data]. change (1024 ^ 2) with 1048576.
  destruct (Z.ltb_spec (mb * 1048576) (zlen (junk ++ frames rs ++ tail))) as [_|]; [|lia].
  rewrite ahead_eq. pose proof (zlen_nonneg junk). rewrite seek1 by nia.
  rewrite (reader_frame junk rs tail d) by auto. unfold far, fS, sample_time in *. cbn [frame_of d_tag d_toff].
  destruct (Z.ltb_spec (300 * 196000000) (r_tag (znth d (ahead size mb) rs) - r_toff (znth d (ahead size mb) rs) - (r_tag r0 - r_toff r0))); [|lia].
  unfold f_tell. cbn [f_pos]. rewrite seek0 by nia. feq.
Qed.

Lemma read_n_frames : forall n junk rs tail j, Forall (well_formed lo hi) rs -> 0 <= j -> j + Z.of_nat n <= zlen rs ->
  exists ds, read_n reader n (mkFile (junk ++ frames rs ++ tail) (zlen junk + j * size)) =
    (mkFile (junk ++ frames rs ++ tail) (zlen junk + (j + Z.of_nat n) * size), ds, None).
Proof.
  induction n as [|n IH]; intros junk rs tail j F H0 H; cbn [read_n].
  - exists []. do 3 f_equal. lia.
  - rewrite (reader_frame junk rs tail (mkRec 0 0 0 0 0 0 0 0 0 0 [])) by (auto; lia).
    destruct (IH junk rs tail (j + 1)) as [ds D]; auto; try lia.
    replace (zlen junk + j * size + size) with (zlen junk + (j + 1) * size) by lia. rewrite D. eexists. do 3 f_equal. lia.
Qed.

Lemma read_n_short : forall n junk rs tail j, Forall (well_formed lo hi) rs -> 0 <= j <= zlen rs -> zlen tail < size -> zlen rs < j + Z.of_nat n ->
  exists p ds, read_n reader n (mkFile (junk ++ frames rs ++ tail) (zlen junk + j * size)) =
    (mkFile (junk ++ frames rs ++ tail) p, ds, Some EOFError).
Proof.
  induction n as [|n IH]; intros junk rs tail j F H0 HT H; [lia|]. cbn [read_n]. pose proof (zlen_nonneg junk).
  destruct (Z.eq_dec j (zlen rs)) as [->|NE].
  - destruct (reader_eof (junk ++ frames rs ++ tail) (zlen junk + zlen rs * size)) as [p ->]; [nia| |eauto].
    rewrite !zlen_app, frames_len by auto. lia.
  - rewrite (reader_frame junk rs tail (mkRec 0 0 0 0 0 0 0 0 0 0 [])) by (auto; lia).
    destruct (IH junk rs tail (j + 1)) as (p & ds & D); auto; try lia.
    replace (zlen junk + j * size + size) with (zlen junk + (j + 1) * size) by lia. rewrite D. eauto.
Qed.

Lemma ready_start : forall junk r0 rs tail, bytes_ok (junk ++ frames (r0 :: rs) ++ tail) -> well_formed lo hi r0 -> starts_data r0 ->
  no_sync junk (frames (r0 :: rs) ++ tail) ->
  align size reader kind (S (length (junk ++ frames (r0 :: rs) ++ tail))) (mkFile (junk ++ frames (r0 :: rs) ++ tail) 0) =
    (mkFile (junk ++ frames (r0 :: rs) ++ tail) (zlen junk), Ok (frame_of e r0)).
Proof.
  intros junk r0 rs tail B W SD NS. unfold frames in *. cbn [map concat] in *. rewrite <- !app_assoc in *.
  apply align_junk; auto; pose proof (zlen_nonneg junk); try lia.
  unfold zlen. rewrite app_length. lia.
Qed.

Definition near_all (junk : list Z) (r0 : recorded) (rs : list recorded) (tail : list Z) (mbs : list Z) : Prop :=
  forall mb, In mb mbs -> mb * 1048576 < zlen (junk ++ frames rs ++ tail) ->
    ahead size mb < zlen rs /\ forall d, sample_time (znth d (ahead size mb) rs) - sample_time r0 <= 300 * 196000000.
Lemma ahead_nonneg : forall mb, In mb [1; 2; 4; 8; 16] -> 0 < ahead size mb.
Proof. intros mb H. unfold ahead. cbn in H. repeat (destruct H as [<-|H]; [nia|]). contradiction. Qed.
Lemma gap_checks_near : forall junk rs tail r0 mbs, Forall (well_formed lo hi) rs -> (forall mb, In mb mbs -> 0 <= ahead size mb) ->
  near_all junk r0 rs tail mbs ->
  gap_checks size reader (frame_of e r0) (mkFile (junk ++ frames rs ++ tail) (zlen junk)) mbs = (mkFile (junk ++ frames rs ++ tail) (zlen junk), Ok tt).
Proof.
  intros junk rs tail r0 mbs F. induction mbs as [|mb mbs IH]; intros HN HA; auto. cbn [gap_checks].
  rewrite (gap_check_near junk rs tail r0 r0).
  - apply IH. { intros. apply HN. right. auto. } intros m Hm. apply HA. right. auto.
  - auto.
  - intro L. destruct (HA mb (or_introl eq_refl) L) as [A B]. split; [split; [apply HN; left; auto|auto]|auto].
Qed.
Lemma gap_checks_far : forall junk rs tail r0 pre mb post d, Forall (well_formed lo hi) rs -> (forall m, In m (pre ++ mb :: post) -> 0 <= ahead size m) ->
  near_all junk r0 rs tail pre ->
  mb * 1048576 < zlen (junk ++ frames rs ++ tail) -> ahead size mb < zlen rs -> 300 * 196000000 < sample_time (znth d (ahead size mb) rs) - sample_time r0 ->
  gap_checks size reader (frame_of e r0) (mkFile (junk ++ frames rs ++ tail) (zlen junk)) (pre ++ mb :: post) =
    (mkFile (junk ++ frames rs ++ tail) (zlen junk + ahead size mb * size), Ok tt).
Proof.
  intros junk rs tail r0 pre mb post d F. induction pre as [|m pre IH]; intros HN HA L1 L2 L3; cbn [app gap_checks].
  - rewrite (gap_check_far junk rs tail r0 d); auto. split; auto. apply HN. left. auto.
  - rewrite (gap_check_near junk rs tail r0 r0).
    + apply IH; auto. { intros. apply HN. right. auto. } intros m' Hm. apply HA. right. auto.
    + auto.
    + intro L. destruct (HA m (or_introl eq_refl) L) as [A B]. split; [split; [apply HN; left; auto|auto]|auto].
Qed.

Lemma ready_ok : forall junk r0 rs tail, bytes_ok (junk ++ frames (r0 :: rs) ++ tail) -> Forall (well_formed lo hi) (r0 :: rs) -> starts_data r0 ->
  no_sync junk (frames (r0 :: rs) ++ tail) -> 32 <= zlen (r0 :: rs) -> near_all junk r0 (r0 :: rs) tail [1; 2; 4; 8; 16] ->
  ready size reader kind (mkFile (junk ++ frames (r0 :: rs) ++ tail) 0) = (mkFile (junk ++ frames (r0 :: rs) ++ tail) (zlen junk), Ok tt).
Proof.
  intros junk r0 rs tail B F SD NS L NA. assert (W : well_formed lo hi r0) by (inversion F; auto).
  unfold ready. cbn [f_data]. rewrite ready_start by auto.
  rewrite gap_checks_near; auto; [|intros mb H; pose proof (ahead_nonneg mb H); lia].
  destruct (read_n_frames 32 junk (r0 :: rs) tail 0 F) as [ds D]; [lia|lia|].
  replace (zlen junk + 0 * size) with (zlen junk) in D by lia. rewrite D.
  pose proof (zlen_nonneg junk). rewrite seek1 by lia. feq.
Qed.
Lemma ready_far : forall junk r0 rs tail pre mb post d, bytes_ok (junk ++ frames (r0 :: rs) ++ tail) -> Forall (well_formed lo hi) (r0 :: rs) -> starts_data r0 ->
  no_sync junk (frames (r0 :: rs) ++ tail) -> [1; 2; 4; 8; 16] = pre ++ mb :: post -> near_all junk r0 (r0 :: rs) tail pre ->
  mb * 1048576 < zlen (junk ++ frames (r0 :: rs) ++ tail) -> ahead size mb + 32 <= zlen (r0 :: rs) ->
  300 * 196000000 < sample_time (znth d (ahead size mb) (r0 :: rs)) - sample_time r0 ->
  ready size reader kind (mkFile (junk ++ frames (r0 :: rs) ++ tail) 0) = (mkFile (junk ++ frames (r0 :: rs) ++ tail) (zlen junk + ahead size mb * size), Ok tt).
Proof.
  intros junk r0 rs tail pre mb post d B F SD NS EQ NA L1 L2 L3. assert (W : well_formed lo hi r0) by (inversion F; auto).
  assert (AN : 0 < ahead size mb) by (apply ahead_nonneg; rewrite EQ; apply in_app_iff; right; left; auto).
  unfold ready. cbn [f_data]. rewrite ready_start by auto. rewrite EQ.
  rewrite (gap_checks_far junk (r0 :: rs) tail r0 pre mb post d); auto; try lia.
  2: { intros m H. rewrite <- EQ in H. pose proof (ahead_nonneg m H). lia. }
  destruct (read_n_frames 32 junk (r0 :: rs) tail (ahead size mb) F) as [ds D]; [lia|lia|]. rewrite D.
  pose proof (zlen_nonneg junk). rewrite seek1 by nia. feq.
Qed.
(** the file ends between a checkpoint and the end of the frame there *)
Lemma ready_size : forall junk r0 rs tail pre mb post, bytes_ok (junk ++ frames (r0 :: rs) ++ tail) -> Forall (well_formed lo hi) (r0 :: rs) -> starts_data r0 ->
  no_sync junk (frames (r0 :: rs) ++ tail) -> [1; 2; 4; 8; 16] = pre ++ mb :: post -> near_all junk r0 (r0 :: rs) tail pre ->
  mb * 1048576 < zlen (junk ++ frames (r0 :: rs) ++ tail) < zlen junk + (ahead size mb + 1) * size ->
  snd (ready size reader kind (mkFile (junk ++ frames (r0 :: rs) ++ tail) 0)) = Raise EOFError.
Proof.
  intros junk r0 rs tail pre mb post B F SD NS EQ NA L. assert (W : well_formed lo hi r0) by (inversion F; auto).
  assert (AN : 0 < ahead size mb) by (apply ahead_nonneg; rewrite EQ; apply in_app_iff; right; left; auto).
  assert (HN : forall m, In m (pre ++ mb :: post) -> 0 <= ahead size m) by (intros m H; rewrite <- EQ in H; pose proof (ahead_nonneg m H); lia).
  unfold ready. cbn [f_data]. rewrite ready_start by auto. rewrite EQ. clear EQ.
  set (f := mkFile (junk ++ frames (r0 :: rs) ++ tail) (zlen junk)).
  assert (G : exists f', gap_checks size reader (frame_of e r0) f (pre ++ mb :: post) = (f', Raise EOFError)).
  { revert HN NA. induction pre as [|m pre IH]; intros HN NA; cbn [app gap_checks].
    - unfold gap_check. unfold f at 1. cbn [f_data]. change (1024 ^ 2) with 1048576.
      destruct (Z.ltb_spec (mb * 1048576) (zlen (junk ++ frames (r0 :: rs) ++ tail))); [|lia].
      rewrite ahead_eq. unfold f. pose proof (zlen_nonneg junk). rewrite seek1 by nia.
      destruct (reader_eof (junk ++ frames (r0 :: rs) ++ tail) (zlen junk + ahead size mb * size)) as [p ->]; [nia|lia|]. eauto.
    - unfold f. rewrite (gap_check_near junk (r0 :: rs) tail r0 r0); auto.
      + apply IH; auto. { intros. apply HN. right. auto. } intros m' Hm. apply NA. right. auto.
      + intro X. destruct (NA m (or_introl eq_refl) X) as [A B']. split; [split; [apply HN; left; auto|auto]|auto]. }
  destruct G as [f' ->]. auto.
Qed.
Lemma ready_short : forall junk r0 rs tail, bytes_ok (junk ++ frames (r0 :: rs) ++ tail) -> Forall (well_formed lo hi) (r0 :: rs) -> starts_data r0 ->
  no_sync junk (frames (r0 :: rs) ++ tail) -> zlen tail < size -> zlen (r0 :: rs) < 32 -> zlen (junk ++ frames (r0 :: rs) ++ tail) <= 1048576 ->
  snd (ready size reader kind (mkFile (junk ++ frames (r0 :: rs) ++ tail) 0)) = Raise EOFError.
Proof.
  intros junk r0 rs tail B F SD NS HT L LS. assert (W : well_formed lo hi r0) by (inversion F; auto).
  unfold ready. cbn [f_data]. rewrite ready_start by auto.
  rewrite gap_checks_near; auto; [|intros mb H; pose proof (ahead_nonneg mb H); lia|].
  - destruct (read_n_short 32 junk (r0 :: rs) tail 0 F) as (p & ds & D); auto; try (pose proof (zlen_nonneg (r0 :: rs)); lia).
    replace (zlen junk + 0 * size) with (zlen junk) in D by lia. rewrite D. auto.
  - intros mb H X. exfalso. cbn in H. lia.
Qed.
(** a sync word in the junk that starts no data hides the frames behind it *)
Lemma align_false_sync : forall h b pad r1 r2 rest, zlen h = 32 -> bytes_ok (h ++ bts r1 ++ bts r2 ++ rest) ->
  bts r1 = b ++ pad -> zlen pad = 32 ->
  (exists d, reader (mkFile (h ++ bts r1 ++ bts r2 ++ rest) 0) = (mkFile (h ++ bts r1 ++ bts r2 ++ rest) size, Got d) /\ good_start kind d = false) ->
  well_formed lo hi r1 -> well_formed lo hi r2 -> starts_data r2 -> no_sync pad (bts r2 ++ rest) ->
  align size reader kind (S (length (h ++ bts r1 ++ bts r2 ++ rest))) (mkFile (h ++ bts r1 ++ bts r2 ++ rest) 0) =
   (mkFile (h ++ bts r1 ++ bts r2 ++ rest) (32 + size), Ok (frame_of e r2)).
Proof.
  intros h b pad r1 r2 rest Hh B HP HPl (d & HD & HG) W1 W2 SD NS.
  set (data := h ++ bts r1 ++ bts r2 ++ rest) in *. cbn [align]. rewrite HD, HG.
  pose proof (BL r1 W1) as L1. pose proof (BL r2 W2) as L2. pose proof (zlen_nonneg rest).
  assert (ZD : zlen data = 32 + size + size + zlen rest) by (unfold data; rewrite !zlen_app; lia).
  (* the scan from byte [size] to byte 32 + size *)
  assert (SC : forall k i, size <= i <= 32 + size -> (Z.to_nat (32 + size - i) < k)%nat ->
    align size reader kind k (mkFile data i) = (mkFile data (32 + size), Ok (frame_of e r2))).
  { induction k as [|k IH]; intros i Hi Hk; [lia|]. cbn [align]. destruct (Z.eq_dec i (32 + size)) as [->|NE].
    - assert (E : data = (h ++ bts r1) ++ bts r2 ++ rest) by (unfold data; rewrite <- app_assoc; auto).
      assert (P : 32 + size = zlen (h ++ bts r1)) by (rewrite zlen_app; lia).
      rewrite E, P, (RD (h ++ bts r1) rest r2 W2). unfold good_start. rewrite (KD r2 W2). destruct SD as [S1 S2]. cbn [frame_of d_dec d_tag].
      destruct (Z.eqb_spec (r_dec r2) 0); [contradiction|]. destruct (Z.ltb_spec 61849368000000000 (r_tag r2)); [|lia]. cbn [andb negb].
      rewrite seek1 by lia. feq.
    - rewrite reader_bad; auto; try lia.
      + rewrite seek1 by lia.
        replace (i + size + (- size + 1)) with (i + 1) by lia. apply IH; lia.
      + intro SY. apply (NS (i - size)); [lia|]. unfold sync_at in *. rewrite <- SY. unfold data. rewrite HP. rewrite <- (app_assoc b), (app_assoc h).
        assert (LH : zlen (h ++ b) = size). { rewrite zlen_app. rewrite HP, zlen_app in L1. lia. }
        rewrite (slice_app_r (h ++ b)) by lia. rewrite LH. auto. }
  apply SC; [lia|]. unfold zlen in ZD. lia.
Qed.
End R.
