(** LWADataFile: how each format's test comes out. *)
From Coq Require Import List ZArith Bool Lia.
From Verif Require Import LibBytes M_LdpAny S_Drx S_Drspec S_Cor S_LdpReady S_LdpSpec P_Drx P_Drspec P_LdpReady P_LdpSpec P_Cor P_Tbx P_CorDesc P_CorT.
Import ListNotations.
Open Scope Z_scope.

Lemma sync_dec : forall l i, sync_at l i \/ ~ sync_at l i.
Proof. intros l i. unfold sync_at. destruct (list_eq_dec Z.eq_dec (slice i 4 l) [222; 192; 222; 92]); auto. Qed.
Lemma seek0_ok : forall data p d, 0 <= d -> f_seek d 0 (mkFile data p) = (mkFile data d, None).
Proof. intros. unfold f_seek. change (0 =? 0) with true. cbv iota. destruct (Z.ltb_spec d 0); [lia|]. reflexivity. Qed.
Lemma seek1_ok : forall data p d, 0 <= p + d -> f_seek d 1 (mkFile data p) = (mkFile data (p + d), None).
Proof. intros. unfold f_seek. change (1 =? 0) with false. change (1 =? 1) with true. cbv iota. cbn [f_pos f_data]. destruct (Z.ltb_spec (p + d) 0); [lia|]. reflexivity. Qed.
Lemma seek1_neg : forall data p d, p + d < 0 -> f_seek d 1 (mkFile data p) = (mkFile data p, Some OSError).
Proof. intros. unfold f_seek. change (1 =? 0) with false. change (1 =? 1) with true. cbv iota. cbn [f_pos f_data]. destruct (Z.ltb_spec (p + d) 0); [|lia]. reflexivity. Qed.

(** ** Readers of a fixed frame size *)
Section Gen.
Context (size : Z) (fill : list Z -> list Z).
Context (SZ : 32 < size < 1000000).
Let reader := read_frame_gen size fill.
Context (data : list Z) (B : bytes_ok data).

Lemma raw_at : forall i, 0 <= i -> i + size <= zlen data -> f_read size (mkFile data i) = (mkFile data (i + size), slice i size data).
Proof.
  intros i H0 H. unfold f_read. cbn [f_data f_pos]. destruct (Z.ltb_spec size 0); [lia|]. fold (slice i size data).
  rewrite slice_zlen by lia. auto.
Qed.
Lemma sync_valid : forall i, 0 <= i -> i + size <= zlen data -> (valid_sync (slice i size data) = true <-> sync_at data i).
Proof.
  intros i H0 H. unfold valid_sync, sync_at. assert (X : slice 0 4 (slice i size data) = slice i 4 data).
  { unfold slice. rewrite zdrop_0 by lia. rewrite ztake_ztake. f_equal. lia. }
  rewrite X. split; [|intros ->; reflexivity]. intro E. apply Z.eqb_eq in E. 
  assert (L4 : zlen (slice i 4 data) = 4) by (apply slice_zlen; lia).
  rewrite <- (le_le_val (slice i 4 data)) by (apply slice_ok; auto). rewrite E.
  replace (length (slice i 4 data)) with 4%nat by (unfold zlen in L4; lia). reflexivity.
Qed.
Lemma gen_good : forall i, 0 <= i -> i + size <= zlen data -> sync_at data i -> exists d, reader (mkFile data i) = (mkFile data (i + size), Got d).
Proof.
  intros i H0 H HS. unfold reader, read_frame_gen. rewrite raw_at by auto. rewrite slice_zlen by lia. rewrite Z.eqb_refl. cbn [negb].
  apply sync_valid in HS; auto. rewrite HS. cbn [negb]. eauto.
Qed.
Lemma gen_bad : forall i, 0 <= i -> i + size <= zlen data -> ~ sync_at data i -> reader (mkFile data i) = (mkFile data (i + size), BadSync i).
Proof.
  intros i H0 H HS. unfold reader, read_frame_gen. rewrite raw_at by auto. rewrite slice_zlen by lia. rewrite Z.eqb_refl. cbn [negb].
  destruct (valid_sync (slice i size data)) eqn:V; [apply sync_valid in V; auto; contradiction|]. cbn [negb f_tell f_pos]. do 2 f_equal. lia.
Qed.
Lemma gen_eof : forall i, 0 <= i -> zlen data < i + size -> exists q, 0 <= q /\ reader (mkFile data i) = (mkFile data q, AtEOF).
Proof.
  intros i H0 H. unfold reader, read_frame_gen, f_read. cbn [f_data f_pos]. destruct (Z.ltb_spec size 0); [lia|].
  rewrite !zlen_ztake, !zlen_zdrop by lia. destruct (Z.eqb_spec (Z.min size (Z.max 0 (zlen data - i))) size); [lia|].
  eexists. split; [|reflexivity]. lia.
Qed.

(** The place the search ends at. *)
Definition hit (i : Z) : Prop := 0 <= i < size /\ i + size <= zlen data /\ sync_at data i /\ forall j, 0 <= j < i -> ~ sync_at data j.
Definition no_hit : Prop := forall i, 0 <= i < size -> i + size <= zlen data -> ~ sync_at data i.
Lemma hit_or_not : no_hit \/ exists i, hit i.
Proof.
  assert (G : forall n, (forall i, 0 <= i < Z.of_nat n -> i + size <= zlen data -> ~ sync_at data i) \/
    exists i, 0 <= i < Z.of_nat n /\ i + size <= zlen data /\ sync_at data i /\ forall j, 0 <= j < i -> ~ sync_at data j).
  { induction n as [|n [IH|(i & H)]]; [left; intros; lia| |right; exists i; intuition lia].
    destruct (Z.le_gt_cases (Z.of_nat n + size) (zlen data)) as [L|L].
    - destruct (sync_dec data (Z.of_nat n)) as [Y|N].
      + right. exists (Z.of_nat n). split; [lia|]. split; [auto|]. split; [auto|]. intros j Hj. apply IH; lia.
      + left. intros i Hi Hs. destruct (Z.eq_dec i (Z.of_nat n)) as [->|]; auto. apply IH; lia.
    - left. intros i Hi Hs. apply IH; lia. }
  destruct (G (Z.to_nat size)) as [H|(i & H1 & H2)]; [left; intros i Hi; apply H; lia|right; exists i; split; [lia|exact H2]].
Qed.

Lemma scan_hit : forall n p i, 0 <= p <= i -> i + size <= zlen data -> sync_at data i -> (forall j, p <= j < i -> ~ sync_at data j) ->
  (Z.to_nat (i - p) < n)%nat -> scan (plain reader) size n tt (mkFile data p) = (tt, mkFile data (i + size), Ok true).
Proof.
  induction n as [|n IH]; intros p i Hp Hl HS HN Hn; [lia|]. cbn [scan]. unfold plain at 1. destruct (Z.eq_dec p i) as [->|NE].
  - destruct (gen_good i) as [d ->]; auto; lia.
  - rewrite gen_bad; [|lia|lia|apply HN; lia]. rewrite seek1_ok by lia.
    replace (p + size + (- size + 1)) with (p + 1) by lia. apply IH; auto; try lia. intros j Hj. apply HN. lia.
Qed.
Lemma scan_miss : forall n p, 0 <= p -> (forall j, p <= j < p + Z.of_nat n -> j + size <= zlen data -> ~ sync_at data j) ->
  exists q, 0 <= q /\ scan (plain reader) size n tt (mkFile data p) = (tt, mkFile data q, Ok false).
Proof.
  induction n as [|n IH]; intros p Hp HN; cbn [scan]; [eauto|]. unfold plain at 1.
  destruct (Z.le_gt_cases (p + size) (zlen data)) as [L|L].
  - rewrite gen_bad; [|lia|lia|apply HN; lia]. rewrite seek1_ok by lia.
    replace (p + size + (- size + 1)) with (p + 1) by lia. apply IH; [lia|]. intros j Hj. apply HN. lia.
  - destruct (gen_eof p Hp L) as (q & Hq & ->). eauto.
Qed.

Lemma probe_none : no_hit -> probe (plain reader) size tt (mkFile data 0) = (tt, mkFile data 0, Ok NextMode).
Proof.
  intro H. unfold probe. destruct (scan_miss (Z.to_nat size) 0 ltac:(lia)) as (q & _ & ->); [intros j Hj; apply H; lia|].
  rewrite seek0_ok by lia. reflexivity.
Qed.
Lemma probe_hit : forall i, hit i ->
  (zlen data < i + 2 * size -> exists q, 0 <= q /\ probe (plain reader) size tt (mkFile data 0) = (tt, mkFile data q, Ok GaveUp)) /\
  (i + 2 * size <= zlen data -> sync_at data (i + size) ->
     probe (plain reader) size tt (mkFile data 0) = (tt, mkFile data (i + 2 * size), Ok Found)) /\
  (i + 2 * size <= zlen data -> ~ sync_at data (i + size) -> probe (plain reader) size tt (mkFile data 0) = (tt, mkFile data 0, Ok NextMode)).
Proof.
  intros i (H1 & H2 & H3 & H4). unfold probe. rewrite (scan_hit (Z.to_nat size) 0 i) by (auto; lia).
  rewrite seek1_ok by lia. replace (i + size + - size) with i by lia. cbn [reads]. unfold plain.
  destruct (gen_good i) as [d ->]; auto; try lia. split; [|split].
  - intro L. destruct (gen_eof (i + size)) as (q & Hq & ->); try lia. eauto.
  - intros L S. destruct (gen_good (i + size)) as [d2 ->]; auto; try lia. do 3 f_equal. lia.
  - intros L S. rewrite gen_bad by (auto; lia). rewrite seek0_ok by lia. reflexivity.
Qed.
End Gen.

(** ** DR spectrometer *)
Notation probe_drspec := (probe_sized (plain read_drspec) (fun u f => let '(f1, r) := drs_frame_size f in (u, f1, r))).

Lemma drs_got : forall data p f s, bytes_ok data -> 0 <= p -> read_drspec (mkFile data p) = (f, Got s) ->
  header_at data p /\ exists q, p + 76 <= q <= zlen data /\ f = mkFile data q.
Proof.
  intros data p f s B Hp H.
  destruct (Z.le_gt_cases (p + 76) (zlen data)) as [L|L].
  - assert (HD : header_at data p \/ ~ header_at data p).
    { unfold header_at. destruct (list_eq_dec Z.eq_dec (slice p 4 data) [222; 192; 222; 192]); [|tauto].
      destruct (list_eq_dec Z.eq_dec (slice (p + 72) 4 data) [12; 237; 12; 237]); tauto. }
    destruct HD as [Y|N]; [|rewrite bad_header in H by auto; discriminate H]. split; [exact Y|].
    unfold read_drspec in H. unfold f_read in H. cbn [f_data f_pos] in H. change (76 <? 0) with false in H. cbv iota in H.
    fold (slice p 76 data) in H. rewrite slice_zlen in H by lia. change (76 =? 76) with true in H. cbn [negb] in H.
    destruct (negb _) in H; [discriminate H|]. set (n := 4 * _ * _) in H. cbv zeta in H. destruct (Z.ltb_spec n 0) as [LN|LN].
    + destruct (negb _) eqn:E in H; [discriminate H|]. apply negb_false_iff, Z.eqb_eq in E. pose proof (zlen_nonneg (zdrop (p + 76) data)). lia.
    + destruct (negb _) eqn:E in H; [discriminate H|]. apply negb_false_iff, Z.eqb_eq in E. injection H as <- _.
      rewrite E. exists (p + 76 + n). split; [|reflexivity]. rewrite zlen_ztake, zlen_zdrop in E by lia. lia.
  - unfold read_drspec in H. unfold f_read in H. cbn [f_data f_pos] in H. change (76 <? 0) with false in H. cbv iota in H.
    rewrite zlen_ztake, zlen_zdrop in H by lia. destruct (Z.eqb_spec (Z.min 76 (Z.max 0 (zlen data - p))) 76); [lia|]. discriminate H.
Qed.
Lemma f_read_keeps : forall n f f1 d, f_read n f = (f1, d) -> f_data f1 = f_data f /\ f_pos f1 = f_pos f + zlen d.
Proof. intros n f f1 d H. unfold f_read in H. injection H as <- <-. cbn [f_data f_pos]. auto. Qed.
Lemma drs_rest : forall data p f r, 0 <= p -> read_drspec (mkFile data p) = (f, r) -> f_data f = data /\ 0 <= f_pos f.
Proof.
  intros data p f r Hp H. unfold read_drspec in H. destruct (f_read 76 (mkFile data p)) as [f1 d1] eqn:E1.
  destruct (f_read_keeps _ _ _ _ E1) as [D1 P1]. cbn [f_data f_pos] in D1, P1. pose proof (zlen_nonneg d1).
  destruct (Z.eqb_spec (zlen d1) 76) as [E|E]; cbn [negb] in H; [|injection H as <- _; split; [auto|lia]].
  destruct (negb _) in H.
  - injection H as <- _. destruct f1 as [dd pp]. cbn [f_data f_pos] in *. rewrite seek1_ok by lia. cbn [fst f_data f_pos]. split; [auto|lia].
  - cbv zeta in H. destruct (f_read _ f1) as [f2 d2] eqn:E2 in H. destruct (f_read_keeps _ _ _ _ E2) as [D2 P2]. pose proof (zlen_nonneg d2).
    destruct (negb _) in H; injection H as <- _; (split; [congruence|lia]).
Qed.

Lemma probe_drspec_not : forall data, bytes_ok data -> ~ header_at data 0 -> probe_drspec tt (mkFile data 0) = (tt, mkFile data 0, Ok NextMode).
Proof.
  intros data B N. unfold probe_sized, drs_frame_size. destruct (read_drspec (mkFile data 0)) as [f r] eqn:E.
  destruct (drs_rest _ _ _ _ (Z.le_refl 0) E) as [D P]. destruct f as [d p]. cbn [f_data f_pos] in D, P. subst d. cbn [f_tell f_pos].
  rewrite seek0_ok by lia. cbn [fst]. destruct r as [s| |l].
  - destruct (drs_got _ _ _ _ B (Z.le_refl 0) E) as [Y _]. contradiction.
  - unfold probe. cbn [Z.to_nat scan]. rewrite seek0_ok by lia. reflexivity.
  - unfold probe. cbn [Z.to_nat scan]. rewrite seek0_ok by lia. reflexivity.
Qed.
Lemma probe_drspec_two : forall r1 r2 rest, drs_ok r1 -> drs_ok r2 -> bytes_ok (drs_bytes r1 ++ drs_bytes r2 ++ rest) ->
  exists p, 0 <= p /\ probe_drspec tt (mkFile (drs_bytes r1 ++ drs_bytes r2 ++ rest) 0) = (tt, mkFile (drs_bytes r1 ++ drs_bytes r2 ++ rest) p, Ok Found).
Proof.
  intros r1 r2 rest W1 W2 B. set (data := drs_bytes r1 ++ drs_bytes r2 ++ rest) in *.
  pose proof (read_drspec_gen [] (drs_bytes r2 ++ rest) r1 W1) as R1. cbv zeta in R1. cbn [app] in R1. change (zlen (@nil Z)) with 0 in R1. fold data in R1.
  pose proof (read_drspec_gen (drs_bytes r1) rest r2 W2) as R2. cbv zeta in R2. fold data in R2. rewrite drs_bytes_zlen in R2 by auto.
  assert (L : forall r, 76 <= drs_len r). { intro r. unfold drs_len, q_nfreq. pose proof (zlen_nonneg (products (q_format r))). pose proof (zlen_nonneg (q_spec0 r)). nia. }
  pose proof (L r1) as L1. pose proof (L r2) as L2.
  unfold probe_sized, drs_frame_size. rewrite R1. cbn [f_tell f_pos]. rewrite seek0_ok by lia. cbn [fst].
  destruct (Z.ltb_spec (0 + drs_len r1) 0); [lia|]. unfold probe.
  replace (Z.to_nat (0 + drs_len r1 - 0)) with (S (Z.to_nat (drs_len r1 - 1))) by lia. cbn [scan]. unfold plain at 1. rewrite R1.
  rewrite seek1_ok by lia. replace (0 + drs_len r1 + - (0 + drs_len r1 - 0)) with 0 by lia. cbn [reads]. unfold plain. rewrite R1.
  change (0 + drs_len r1) with (drs_len r1). rewrite R2. exists (drs_len r1 + drs_len r2). split; [lia|reflexivity].
Qed.
