(** LWADataFile: TBX and COR, and what an answer says about the file. *)
From Coq Require Import List ZArith Bool Lia.
From Verif Require Import LibBytes M_LdpAny S_Drx S_Drspec S_Cor S_LdpReady S_LdpSpec S_LdpAny P_Drx P_Drspec P_LdpReady P_LdpSpec P_Cor P_Tbx P_CorDesc P_CorT P_LdpAny.
Import ListNotations.
Open Scope Z_scope.

Lemma tbx_read_at : forall data st p st' f' r, bytes_ok data -> tc_coherent st -> 0 <= p -> read_tbx st (mkFile data p) = (st', f', r) ->
  f_data f' = data /\ tc_coherent st' /\ 0 <= f_pos f' /\
  match r with Got _ => tbx_at data p | BadSync _ => f' = mkFile data p | AtEOF => zlen data < p + 8220 end.
Proof.
  intros data st p st' f' r B HC Hp H. destruct (tbx_step_keeps _ (mkFile data p) _ _ _ HC Hp B H) as (_ & _ & P).
  destruct (read_tbx_total _ (mkFile data p) _ _ _ HC Hp B H) as (D & C & O). cbn [f_data f_pos] in *. split; [auto|]. split; [auto|]. split; [auto|].
  unfold tbx_header_mode in O. cbn [f_data f_pos] in O. cbv beta iota zeta in O.
  destruct r as [d| |l].
  - destruct O as (_ & M & S & _). split; [exact S|]. unfold slice in *. rewrite !zdrop_zdrop in M by lia. rewrite Z.add_comm, (Z.add_comm p 18). exact M.
  - assert (X : forall st0, tc_coherent st0 -> tc_bytes st0 <= 8220).
    { intros st0 _. unfold tc_bytes, tc_mode, tbx_dispatch, tbx_size.
      repeat match goal with |- context [if ?b then _ else _] => destruct b end; cbn; lia. }
    destruct O as (_ & [O|[M O]]); [specialize (X st HC); lia|]. apply tbx_mode_cases in M. unfold tbx_size in O.
    assert (8220 >= 20 + 8 + be_val (slice 18 2 (zdrop p data)) * be_val (slice 16 2 (zdrop p data)) * 2 * 1) by nia. lia.
  - destruct O as (_ & P1 & _). destruct f' as [dd pp]. cbn [f_data f_pos] in *. congruence.
Qed.
Lemma cor_read_at : forall data st p st' f' r, bytes_ok data -> cc_coherent st -> 0 <= p -> read_cor st (mkFile data p) = (st', f', r) ->
  f_data f' = data /\ cc_coherent st' /\ 0 <= f_pos f' /\
  match r with Got _ => sync_at data p | BadSync _ => f' = mkFile data p | AtEOF => zlen data < p + 6176 end.
Proof.
  intros data st p st' f' r B HC Hp H. destruct (cor_step_keeps _ (mkFile data p) _ _ _ HC Hp B H) as (_ & _ & P).
  destruct (read_cor_total _ (mkFile data p) _ _ _ HC Hp B H) as (D & C & O). cbn [f_data f_pos] in *. split; [auto|]. split; [auto|]. split; [auto|].
  destruct r as [d| |l].
  - destruct O as (_ & _ & _ & _ & S). exact S.
  - destruct O as (_ & O & _). destruct HC as [HM _]. apply mode_cases in HM. unfold cor_size in O. lia.
  - destruct O as (_ & P1 & _). destruct f' as [dd pp]. cbn [f_data f_pos] in *. congruence.
Qed.

(** ** The readers that go back on a sync error *)
Section Plain.
Context {St A : Type} (reader : St -> file -> St * file * rd A) (is_kind : A -> bool) (data : list Z).
Definition size_from (n : nat) (st : St) : St * file * res Z :=
  let '(st1, f1, r) := find_frame reader is_kind n st (mkFile data 0) in
  (st1, restore (mkFile data 0) f1, match r with Some (c, n, _) => Ok (n - c) | None => Raise RuntimeError end).
Lemma size_eq : forall st, frame_size reader is_kind st (mkFile data 0) = size_from 2500 st.
Proof. intro st. unfold frame_size, size_from. generalize 2500%nat. reflexivity. Qed.
Lemma size_from_first : forall n st st1 m a, reader st (mkFile data 0) = (st1, mkFile data m, Got a) -> is_kind a = true ->
  size_from (S n) st = (st1, mkFile data 0, Ok m).
Proof.
  intros n st st1 m a H K. unfold size_from. cbn [find_frame]. rewrite H, K. unfold restore. cbn [f_tell f_pos]. rewrite seek0_ok by lia. cbn [fst]. do 2 f_equal. lia.
Qed.
Lemma probe_twice : forall st1 st2 st3 st4 m q a1 a2 a3, 0 < m ->
  reader st1 (mkFile data 0) = (st2, mkFile data m, Got a1) -> reader st2 (mkFile data 0) = (st3, mkFile data m, Got a2) ->
  reader st3 (mkFile data m) = (st4, mkFile data q, Got a3) ->
  probe reader m st1 (mkFile data 0) = (st4, mkFile data q, Ok Found).
Proof.
  intros st1 st2 st3 st4 m q a1 a2 a3 Hm H1 H2 H3. unfold probe. replace (Z.to_nat m) with (S (Z.to_nat (m - 1))) by lia. cbn [scan]. rewrite H1.
  rewrite seek1_ok by lia. replace (m + - m) with 0 by lia. cbn [reads]. rewrite H2, H3. reflexivity.
Qed.
Lemma probe_stuck : forall st1 st2 m l, 2 <= m -> reader st1 (mkFile data 0) = (st2, mkFile data 0, BadSync l) ->
  probe reader m st1 (mkFile data 0) = (st2, mkFile data 0, Raise OSError).
Proof.
  intros st1 st2 m l Hm H. unfold probe. replace (Z.to_nat m) with (S (Z.to_nat (m - 1))) by lia. cbn [scan]. rewrite H.
  rewrite seek1_neg by lia. reflexivity.
Qed.
Lemma probe_sized_eq : forall size st f, probe_sized reader size st f =
  let '(st1, f1, r) := size st f in probe reader (match r with Ok n => n | Raise _ => 0 end) st1 f1.
Proof. reflexivity. Qed.
End Plain.

(** ** What Found means for them *)
Section Sized.
Context {St A : Type} (reader : St -> file -> St * file * rd A) (is_kind : A -> bool) (Inv : St -> Prop) (data : list Z) (P : Z -> Prop).
Context (HR : forall st p st' f' r, Inv st -> 0 <= p -> reader st (mkFile data p) = (st', f', r) ->
  f_data f' = data /\ Inv st' /\ 0 <= f_pos f' /\ match r with Got _ => P p | BadSync _ => f' = mkFile data p | AtEOF => True end).

Lemma find_keeps : forall n st p st' f' q, Inv st -> 0 <= p -> find_frame reader is_kind n st (mkFile data p) = (st', f', q) ->
  f_data f' = data /\ Inv st'.
Proof.
  induction n as [|n IH]; intros st p st' f' q I Hp H; cbn [find_frame] in H; [injection H as <- <- _; auto|].
  destruct (reader st (mkFile data p)) as [[st1 f1] r] eqn:E. destruct (HR _ _ _ _ _ I Hp E) as (D & I1 & P1 & O).
  destruct f1 as [dd pp]. cbn [f_data f_pos] in *. subst dd. destruct r as [a| |l].
  - destruct (is_kind a); [injection H as <- <- _; auto|eauto].
  - injection H as <- <- _; auto.
  - injection O as ->. unfold f_rel in H. rewrite seek1_ok in H by lia. cbn [fst] in H. eapply IH; [| |exact H]; auto; lia.
Qed.
Lemma size_from_keeps : forall n st st' f' q, Inv st -> size_from reader is_kind data n st = (st', f', q) -> f' = mkFile data 0 /\ Inv st'.
Proof.
  intros n st st' f' q I H. unfold size_from in H. destruct (find_frame reader is_kind n st (mkFile data 0)) as [[st1 f1] r] eqn:E.
  destruct (find_keeps _ _ _ _ _ _ I (Z.le_refl 0) E) as [D I1]. injection H as <- <- _. split; [|auto].
  destruct f1 as [dd pp]. cbn [f_data] in D. subst dd. unfold restore. cbn [f_tell f_pos]. rewrite seek0_ok by lia. reflexivity.
Qed.
Lemma size_keeps : forall st st' f' q, Inv st -> frame_size reader is_kind st (mkFile data 0) = (st', f', q) -> f' = mkFile data 0 /\ Inv st'.
Proof. intros st st' f' q I H. rewrite size_eq in H. exact (size_from_keeps _ _ _ _ _ I H). Qed.
Lemma find_none : forall n st p, Inv st -> 0 <= p -> (forall i, p <= i < p + Z.of_nat n -> ~ P i) ->
  exists st' f', find_frame reader is_kind n st (mkFile data p) = (st', f', None).
Proof.
  induction n as [|n IH]; intros st p I Hp HN; cbn [find_frame]; [eauto|].
  destruct (reader st (mkFile data p)) as [[st1 f1] r] eqn:E. destruct (HR _ _ _ _ _ I Hp E) as (D & I1 & P1 & O).
  destruct r as [a| |l]; [exfalso; apply (HN p); [lia|exact O]|eauto|].
  subst f1. unfold f_rel. rewrite seek1_ok by lia. cbn [fst]. apply IH; [auto|lia|]. intros i Hi. apply HN. lia.
Qed.
Lemma size_from_none : forall n st, Inv st -> (forall i, 0 <= i < Z.of_nat n -> ~ P i) ->
  exists st', Inv st' /\ size_from reader is_kind data n st = (st', mkFile data 0, Raise RuntimeError).
Proof.
  intros n st I HN. destruct (find_none n st 0 I (Z.le_refl 0)) as (s2 & f2 & F); [intros i Hi; apply HN; lia|].
  destruct (find_keeps _ _ _ _ _ _ I (Z.le_refl 0) F) as [D I1]. exists s2. split; [auto|]. unfold size_from. rewrite F.
  destruct f2 as [dd pp]. cbn [f_data] in D. subst dd. unfold restore. cbn [f_tell f_pos]. rewrite seek0_ok by lia. reflexivity.
Qed.
Lemma probe_size0 : forall st, Inv st -> (forall i, 0 <= i < 2500 -> ~ P i) ->
  exists st', Inv st' /\ probe_sized reader (frame_size reader is_kind) st (mkFile data 0) = (st', mkFile data 0, Ok NextMode).
Proof.
  intros st I HN. unfold probe_sized. rewrite size_eq. destruct (size_from_none 2500 st I) as (s & I1 & E); [intros i Hi; apply HN; change (Z.of_nat 2500) with 2500 in Hi; exact Hi|].
  rewrite E. exists s. split; [auto|]. unfold probe. cbn [Z.to_nat scan]. rewrite seek0_ok by lia. reflexivity.
Qed.
Lemma probe_keeps : forall mfs st1 st' f' v, Inv st1 -> probe reader mfs st1 (mkFile data 0) = (st', f', v) ->
  Inv st' /\ f_data f' = data /\ 0 <= f_pos f' /\
  match v with
  | Ok Found => P 0
  | Ok NextMode => f_pos f' = 0
  | Ok GaveUp => True
  | Raise e => e = OSError
  end.
Proof.
  intros mfs st1 st' f' v I1 H.
  unfold probe in H. destruct (Z.to_nat mfs) as [|k] eqn:K; cbn [scan] in H.
  - rewrite seek0_ok in H by lia. injection H as <- <- <-. cbn [fst f_data f_pos]. split; [auto|]. split; [auto|]. split; [lia|auto].
  - destruct (reader st1 (mkFile data 0)) as [[st2 f2] r] eqn:E. destruct (HR _ _ _ _ _ I1 (Z.le_refl 0) E) as (D & I2 & P2 & O).
    destruct f2 as [dd pp]. cbn [f_data f_pos] in *. subst dd. destruct r as [a| |l].
    + destruct (f_seek (- mfs) 1 (mkFile data pp)) as [f3 [e|]] eqn:E3.
      * unfold f_seek in E3. cbv zeta in E3. change (1 =? 0) with false in E3. change (1 =? 1) with true in E3. cbv iota in E3.
        destruct (_ <? 0) in E3; [|discriminate E3]. injection E3 as <- <-. injection H as <- <- <-. cbn [f_data f_pos]. split; [auto|]. split; [auto|]. split; auto.
      * assert (F3 : exists p3, 0 <= p3 /\ f3 = mkFile data p3).
        { unfold f_seek in E3. cbv zeta in E3. change (1 =? 0) with false in E3. change (1 =? 1) with true in E3. cbv iota in E3. cbn [f_pos f_data] in E3.
          destruct (Z.ltb_spec (pp + - mfs) 0) in E3; [discriminate E3|]. injection E3 as <-. eauto. }
        destruct F3 as (p3 & Hp3 & ->).
        cbn [reads] in H. destruct (reader st2 (mkFile data p3)) as [[st4 f4] r4] eqn:E4. destruct (HR _ _ _ _ _ I2 Hp3 E4) as (D4 & I4 & P4 & O4).
        destruct f4 as [dd p4]. cbn [f_data f_pos] in *. subst dd.
        destruct r4 as [a4| |l4].
        -- destruct (reader st4 (mkFile data p4)) as [[st5 f5] r5] eqn:E5. destruct (HR _ _ _ _ _ I4 P4 E5) as (D5 & I5 & P5 & O5).
           destruct f5 as [dd p5]. cbn [f_data f_pos] in *. subst dd.
           destruct r5 as [a5| |l5].
           ++ injection H as <- <- <-. split; [auto|]. split; [auto|]. split; [auto|exact O].
           ++ injection H as <- <- <-. split; [auto|]. split; [auto|]. split; auto.
           ++ rewrite seek0_ok in H by lia. injection H as <- <- <-. cbn [fst f_data f_pos]. split; [auto|]. split; [auto|]. split; [lia|auto].
        -- injection H as <- <- <-. split; [auto|]. split; [auto|]. split; auto.
        -- rewrite seek0_ok in H by lia. injection H as <- <- <-. cbn [fst f_data f_pos]. split; [auto|]. split; [auto|]. split; [lia|auto].
    + rewrite seek0_ok in H by lia. injection H as <- <- <-. cbn [fst f_data f_pos]. split; [auto|]. split; [auto|]. split; [lia|auto].
    + injection O as ->. destruct k as [|k].
      * assert (mfs = 1) by lia. subst mfs. rewrite seek1_ok in H by lia. cbn [scan] in H. rewrite seek0_ok in H by lia. injection H as <- <- <-. cbn [fst f_data f_pos].
        split; [auto|]. split; [auto|]. split; [lia|auto].
      * rewrite seek1_neg in H by lia. injection H as <- <- <-. cbn [f_data f_pos]. split; [auto|]. split; [auto|]. split; [lia|auto].
Qed.
Lemma find_skip : forall k n st p, Inv st -> 0 <= p ->
  (forall i st0, Inv st0 -> p <= i < p + Z.of_nat k -> exists st1 l, reader st0 (mkFile data i) = (st1, mkFile data i, BadSync l)) ->
  exists st', Inv st' /\ find_frame reader is_kind (k + n) st (mkFile data p) = find_frame reader is_kind n st' (mkFile data (p + Z.of_nat k)).
Proof.
  induction k as [|k IH]; intros n st p I Hp HB.
  - exists st. split; [auto|]. cbn [plus]. do 2 f_equal. lia.
  - destruct (HB p st I ltac:(lia)) as (st1 & l & E). destruct (HR _ _ _ _ _ I Hp E) as (_ & I1 & _).
    cbn [plus find_frame]. rewrite E. unfold f_rel. rewrite seek1_ok by lia. cbn [fst].
    destruct (IH n st1 (p + 1) I1 ltac:(lia)) as (st' & I' & ->); [intros i st0 I0 Hi; apply HB; [auto|lia]|]. exists st'. split; [auto|]. do 2 f_equal. lia.
Qed.
Lemma size_from_skip : forall k n st m, Inv st ->
  (forall i st0, Inv st0 -> 0 <= i < Z.of_nat k -> exists st1 l, reader st0 (mkFile data i) = (st1, mkFile data i, BadSync l)) ->
  (forall st0, Inv st0 -> exists st1 a, Inv st1 /\ reader st0 (mkFile data (Z.of_nat k)) = (st1, mkFile data (Z.of_nat k + m), Got a) /\ is_kind a = true) ->
  exists st', Inv st' /\ size_from reader is_kind data (k + S n) st = (st', mkFile data 0, Ok m).
Proof.
  intros k n st m I HB HG. destruct (find_skip k (S n) st 0 I (Z.le_refl 0)) as (st1 & I1 & E); [intros i st0 I0 Hi; apply HB; [auto|lia]|].
  destruct (HG st1 I1) as (st2 & a & I2 & G & K). unfold size_from. rewrite E. cbn [find_frame]. change (0 + Z.of_nat k) with (Z.of_nat k).
  rewrite G, K. exists st2. split; [auto|]. unfold restore. cbn [f_tell f_pos]. rewrite seek0_ok by lia. cbn [fst]. do 2 f_equal. lia.
Qed.
Lemma probe_from_keeps : forall n st st' f' v, Inv st ->
  (let '(st1, f1, r) := size_from reader is_kind data n st in probe reader (match r with Ok n => n | Raise _ => 0 end) st1 f1) = (st', f', v) ->
  Inv st' /\ f_data f' = data /\ 0 <= f_pos f' /\
  match v with
  | Ok Found => P 0
  | Ok NextMode => f_pos f' = 0
  | Ok GaveUp => True
  | Raise e => e = OSError
  end.
Proof.
  intros n st st' f' v I H. destruct (size_from reader is_kind data n st) as [[st1 f1] q] eqn:E. destruct (size_from_keeps _ _ _ _ _ I E) as [-> I1].
  eapply probe_keeps; eauto.
Qed.
Lemma probe_sized_keeps : forall st st' f' v, Inv st -> probe_sized reader (frame_size reader is_kind) st (mkFile data 0) = (st', f', v) ->
  Inv st' /\ f_data f' = data /\ 0 <= f_pos f' /\
  match v with
  | Ok Found => P 0
  | Ok NextMode => f_pos f' = 0
  | Ok GaveUp => True
  | Raise e => e = OSError
  end.
Proof. intros st st' f' v I H. rewrite probe_sized_eq, size_eq in H. exact (probe_from_keeps 2500 _ _ _ _ I H). Qed.
End Sized.

(** ** TBX and COR recordings *)
Lemma tbx_found : forall ns nc t r1 r2 rest, tbx_mode ns nc -> tc_coherent t -> tbx_ok ns nc r1 -> tbx_ok ns nc r2 -> x_id r1 = 8 ->
  let data := tbx_bytes r1 ++ tbx_bytes r2 ++ rest in 8220 <= zlen data ->
  exists t' p, probe_sized read_tbx (frame_size read_tbx is_tbx) t (mkFile data 0) = (t', mkFile data p, Ok Found) /\ tc_coherent t' /\ 0 <= p.
Proof.
  intros ns nc t r1 r2 rest M HC W1 W2 ID data HL.
  assert (X : forall st0, tc_bytes st0 <= 8220).
  { intros st0. unfold tc_bytes, tc_mode, tbx_dispatch, tbx_size.
    repeat match goal with |- context [if ?b then _ else _] => destruct b end; cbn; lia. }
  pose proof (tbx_bytes_zlen _ _ _ W1) as L1. pose proof (tbx_bytes_zlen _ _ _ W2) as L2. pose proof (tbx_size_pos ns nc M) as PZ.
  assert (R1 : forall st, tc_coherent st -> exists st', tc_coherent st' /\ tc_mode st' = (ns, nc) /\ read_tbx st (mkFile data 0) = (st', mkFile data (tbx_size ns nc), Got (tframe_of r1))).
  { intros st C. destruct (read_tbx_ok ns nc st [] (tbx_bytes r2 ++ rest) r1 M C W1) as (st' & C' & M' & E).
    - rewrite <- L1, <- zlen_app. fold data. exact (Z.le_trans _ _ _ (X st) HL).
    - exists st'. split; [auto|]. split; [auto|]. exact E. }
  destruct (R1 t HC) as (t1 & C1 & M1 & E1). destruct (R1 t1 C1) as (t2 & C2 & M2 & E2). destruct (R1 t2 C2) as (t3 & C3 & M3 & E3).
  destruct (read_tbx_ok ns nc t3 (tbx_bytes r1) rest r2 M C3 W2) as (t4 & C4 & M4 & E4).
  { unfold tc_bytes. rewrite M3. cbn [fst snd]. pose proof (zlen_nonneg rest) as Q. clear - Q. lia. }
  fold data in E4. rewrite L1 in E4.
  exists t4, (tbx_size ns nc + tbx_size ns nc). split; [|split; [auto|lia]].
  rewrite probe_sized_eq, size_eq. rewrite (size_from_first read_tbx is_tbx data _ t t1 (tbx_size ns nc) (tframe_of r1)); [|auto|].
  - refine (probe_twice read_tbx is_tbx data t1 t2 t3 t4 (tbx_size ns nc) _ _ _ _ _ E2 E3 E4). clear - PZ. lia.
  - unfold is_tbx, tframe_of. cbn [t_id]. rewrite ID. reflexivity.
Qed.
Lemma cor_found : forall n c r1 r2 rest, In n cor_modes -> cc_coherent c -> n <= cc_nchan c -> cor_ok n r1 -> unambiguous r1 -> cor_ok n r2 -> unambiguous r2 ->
  k_id r1 = 2 \/ k_id r1 = 6 ->
  let data := cor_bytes r1 ++ cor_bytes r2 ++ rest in 6176 <= zlen data ->
  exists c' p, probe_sized read_cor (frame_size read_cor is_cor) c (mkFile data 0) = (c', mkFile data p, Ok Found) /\ cc_coherent c' /\ 0 <= p.
Proof.
  intros n c r1 r2 rest M HC HN W1 U1 W2 U2 ID data HL.
  pose proof (cor_bytes_zlen _ _ W1) as L1. pose proof (cor_bytes_zlen _ _ W2) as L2. pose proof (cor_size_pos n M) as PZ.
  assert (HS : ztake 4 (cor_bytes r2 ++ rest) = sync_bytes).
  { unfold cor_bytes. unfold cor_head. cbn [concat]. rewrite <- !app_assoc. apply (ztake_app_exact sync_bytes). }
  assert (R1 : forall st, cc_coherent st -> n <= cc_nchan st -> read_cor st (mkFile data 0) = (mkCC n (Some (cor_size n)), mkFile data (cor_size n), Got (cframe_of n r1))).
  { intros st C Hn. apply (read_cor_ok n st [] (cor_bytes r2 ++ rest) r1 M C W1 U1). destruct (Z.eq_dec (cc_nchan st) n) as [E|NE]; [left; auto|right].
    split; [lia|]. split; [auto|]. rewrite <- L1, <- zlen_app. fold data. refine (Z.le_trans _ _ _ _ HL). destruct C as [CM _]. apply mode_cases in CM. clear - CM. unfold cor_size. lia. }
  set (s := mkCC n (Some (cor_size n))) in *.
  assert (CS : cc_coherent s) by (split; [exact M|right; reflexivity]).
  pose proof (R1 s CS ltac:(cbn; lia)) as E2.
  pose proof (read_cor_ok n s (cor_bytes r1) rest r2 M CS W2 U2 (or_introl eq_refl)) as E4. fold data in E4. rewrite L1 in E4.
  exists s, (cor_size n + cor_size n). split; [|split; [auto|lia]].
  rewrite probe_sized_eq, size_eq. rewrite (size_from_first read_cor is_cor data _ c s (cor_size n) (cframe_of n r1)); [|auto|].
  - refine (probe_twice read_cor is_cor data s s s s (cor_size n) _ _ _ _ _ E2 E2 E4). clear - PZ. lia.
  - unfold is_cor, cframe_of. cbn [c_id]. destruct ID as [-> | ->]; reflexivity.
Qed.
(** A TBX recording whose first byte is not the first of a frame. *)
Lemma tbx_stuck : forall ns nc t junk r1 rest, tbx_mode ns nc -> tc_coherent t -> tbx_ok ns nc r1 -> x_id r1 = 8 ->
  let data := junk ++ tbx_bytes r1 ++ rest in bytes_ok data -> 0 < zlen junk < 2500 -> no_sync junk (tbx_bytes r1 ++ rest) -> zlen junk + 8220 <= zlen data ->
  exists t', tc_coherent t' /\ probe_sized read_tbx (frame_size read_tbx is_tbx) t (mkFile data 0) = (t', mkFile data 0, Raise OSError).
Proof.
  intros ns nc t junk r1 rest M HC W1 ID data B HJ NS HL.
  assert (X : forall st0, tc_bytes st0 <= 8220).
  { intros st0. unfold tc_bytes, tc_mode, tbx_dispatch, tbx_size.
    repeat match goal with |- context [if ?b then _ else _] => destruct b end; cbn; lia. }
  assert (HR : forall st p st' f' r, tc_coherent st -> 0 <= p -> read_tbx st (mkFile data p) = (st', f', r) ->
    f_data f' = data /\ tc_coherent st' /\ 0 <= f_pos f' /\ match r with Got _ => tbx_at data p | BadSync _ => f' = mkFile data p | AtEOF => True end).
  { intros st p st' f' r C Hp E. destruct (tbx_read_at data _ _ _ _ _ B C Hp E) as (A1 & A2 & A3 & A4). split; [auto|]. split; [auto|]. split; [auto|]. destruct r; auto. }
  assert (BAD : forall i st0, tc_coherent st0 -> 0 <= i < zlen junk -> exists st1 l, tc_coherent st1 /\ read_tbx st0 (mkFile data i) = (st1, mkFile data i, BadSync l)).
  { intros i st0 C Hi. destruct (read_tbx st0 (mkFile data i)) as [[st1 f1] r] eqn:E.
    destruct (tbx_read_at data _ _ _ _ _ B C (proj1 Hi) E) as (A1 & A2 & A3 & A4). destruct r as [a| |l]; [exfalso; apply (NS i Hi); apply A4|lia|].
    subst f1. eauto. }
  assert (LJ : 2500%nat = (length junk + S (2499 - length junk))%nat) by (unfold zlen in HJ; lia).
  destruct (size_from_skip read_tbx is_tbx tc_coherent data (tbx_at data) HR (length junk) (2499 - length junk) t (tbx_size ns nc) HC) as (t1 & C1 & E1).
  - intros i st0 C Hi. destruct (BAD i st0 C Hi) as (st1 & l & _ & E). eauto.
  - intros st0 C. destruct (read_tbx_ok ns nc st0 junk rest r1 M C W1) as (st' & C' & _ & E).
    + pose proof (tbx_bytes_zlen _ _ _ W1) as L1. unfold data in HL. rewrite !zlen_app, L1 in HL. specialize (X st0). lia.
    + exists st', (tframe_of r1). split; [auto|]. split; [exact E|]. unfold is_tbx, tframe_of. cbn [t_id]. rewrite ID. reflexivity.
  - destruct (BAD 0 t1 C1 ltac:(lia)) as (t2 & l & C2 & E2). exists t2. split; [auto|].
    rewrite probe_sized_eq, size_eq, LJ, E1. apply (probe_stuck read_tbx data t1 t2 (tbx_size ns nc) l); [|exact E2]. pose proof (tbx_size_pos ns nc M). lia.
Qed.
