(** Proofs about the file models. *)
From Coq Require Import List ZArith Lia Bool.
From Verif Require Import M_Files S_Files.
Import ListNotations.
Open Scope Z_scope.

(** ** Offsets are the prefix sums *)
Definition pre (i : Z) (parts : list (list Z)) : Z := zlen (concat (ztake i parts)).

Lemma concat_app' : forall (a b : list (list Z)), concat (a ++ b) = concat a ++ concat b.
Proof. apply concat_app. Qed.

Lemma ztake_succ : forall A (x : A) i l, 0 < i -> ztake i (x :: l) = x :: ztake (i - 1) l.
Proof.
  intros A x i l H. unfold ztake. replace (Z.to_nat i) with (S (Z.to_nat (i - 1))) by lia. reflexivity.
Qed.
Lemma znth_succ : forall A (d x : A) i l, 0 < i -> znth d i (x :: l) = znth d (i - 1) l.
Proof.
  intros A d x i l H. unfold znth. destruct (Z.ltb_spec i 0), (Z.ltb_spec (i - 1) 0); try lia.
  replace (Z.to_nat i) with (S (Z.to_nat (i - 1))) by lia. reflexivity.
Qed.
Lemma zdrop_succ : forall A (x : A) i l, 0 < i -> zdrop i (x :: l) = zdrop (i - 1) l.
Proof.
  intros A x i l H. unfold zdrop. replace (Z.to_nat i) with (S (Z.to_nat (i - 1))) by lia. reflexivity.
Qed.

Lemma pre_0 : forall parts, pre 0 parts = 0. Proof. reflexivity. Qed.
Lemma pre_cons : forall p r i, 0 < i -> pre i (p :: r) = zlen p + pre (i - 1) r.
Proof. intros. unfold pre. rewrite ztake_succ by lia. simpl. rewrite zlen_app. auto. Qed.
Lemma pre_nonneg : forall i parts, 0 <= pre i parts. Proof. intros. apply zlen_nonneg. Qed.

Lemma offsets_from_len : forall parts a, parts <> [] -> zlen (offsets_from a parts) = zlen parts.
Proof.
  induction parts as [|p r IH]; intros a H; [congruence|].
  destruct r as [|q r]; [reflexivity|].
  change (offsets_from a (p :: q :: r)) with (a :: offsets_from (a + zlen p) (q :: r)).
  rewrite zlen_cons, IH by congruence. rewrite (zlen_cons p). auto.
Qed.

Lemma offsets_from_nth : forall parts a i, 0 <= i < zlen parts ->
  znth 0 i (offsets_from a parts) = a + pre i parts.
Proof.
  induction parts as [|p r IH]; intros a i H; [cbn in H; lia|].
  rewrite zlen_cons in H.
  destruct (Z.eq_dec i 0) as [->|Hi].
  - rewrite pre_0, Z.add_0_r. destruct r; reflexivity.
  - destruct r as [|q r]; [cbn in H; lia|].
    change (offsets_from a (p :: q :: r)) with (a :: offsets_from (a + zlen p) (q :: r)).
    rewrite znth_succ by lia. rewrite IH by lia. rewrite (pre_cons p) by lia. lia.
Qed.

Lemma pre_step : forall parts i, 0 <= i < zlen parts -> pre (i + 1) parts = pre i parts + zlen (znth [] i parts).
Proof.
  induction parts as [|p r IH]; intros i H; [cbn in H; lia|].
  rewrite zlen_cons in H. rewrite pre_cons by lia. replace (i + 1 - 1) with i by lia.
  destruct (Z.eq_dec i 0) as [->|Hi].
  - rewrite !pre_0. change (znth [] 0 (p :: r)) with p. lia.
  - rewrite (pre_cons p) by lia. rewrite znth_succ by lia.
    specialize (IH (i - 1) ltac:(lia)). replace (i - 1 + 1) with i in IH by lia. lia.
Qed.

Lemma pre_total : forall parts, pre (zlen parts) parts = zlen (concat parts).
Proof. intros. unfold pre. rewrite ztake_all by lia. auto. Qed.

Lemma total_size_concat : forall parts, total_size parts = zlen (concat parts).
Proof.
  induction parts as [|p r IH]; auto. simpl. rewrite zlen_app.
  change (total_size (p :: r)) with (zlen p + total_size r). lia.
Qed.

(** ** bisect *)
Lemma bisect_bounds : forall parts a p, parts <> [] -> a <= p ->
  let k := bisect (offsets_from a parts) p - 1 in
  0 <= k < zlen parts /\ a + pre k parts <= p /\
  (k = zlen parts - 1 \/ p < a + pre (k + 1) parts).
Proof.
  induction parts as [|q r IH]; intros a p H Hp; [congruence|].
  rewrite zlen_cons. pose proof (zlen_nonneg r) as Hr.
  destruct r as [|q' r].
  - change (zlen (@nil (list Z))) with 0. cbn [offsets_from bisect]. destruct (Z.leb_spec a p); [|lia]. change (1 + 0 - 1) with 0. rewrite pre_0. lia.
  - change (offsets_from a (q :: q' :: r)) with (a :: offsets_from (a + zlen q) (q' :: r)).
    cbn [bisect]. destruct (Z.leb_spec a p); [|lia]. cbv zeta.
    destruct (Z_le_gt_dec (a + zlen q) p) as [Hle|Hgt].
    + specialize (IH (a + zlen q) p ltac:(congruence) Hle). cbv zeta in IH.
      remember (bisect (offsets_from (a + zlen q) (q' :: r)) p) as b.
      destruct IH as (Hk & H1 & H2).
      replace (1 + b - 1) with b by lia.
      rewrite (pre_cons q) by lia. rewrite (pre_cons q) by lia.
      replace (b + 1 - 1) with (b - 1 + 1) by lia. lia.
    + assert (Hb : bisect (offsets_from (a + zlen q) (q' :: r)) p = 0).
      { destruct r as [|z r0].
        - simpl. destruct (Z.leb_spec (a + zlen q) p); lia.
        - change (offsets_from (a + zlen q) (q' :: z :: r0))
            with ((a + zlen q) :: offsets_from (a + zlen q + zlen q') (z :: r0)).
          cbn [bisect]. destruct (Z.leb_spec (a + zlen q) p); lia. }
      rewrite Hb. replace (1 + 0 - 1) with 0 by lia. rewrite pre_0.
      split; [lia|]. split; [lia|]. right. rewrite pre_step by (rewrite zlen_cons; lia).
      rewrite pre_0. change (znth [] 0 (q :: q' :: r)) with q. lia.
Qed.

Lemma bisect_neg : forall parts a p, p < a -> bisect (offsets_from a parts) p = 0.
Proof.
  intros parts a p H.
  destruct parts as [|q r]; simpl.
  - destruct (Z.leb_spec a p); lia.
  - destruct r; simpl; destruct (Z.leb_spec a p); lia.
Qed.

(** ** The content from a position *)
Lemma concat_from : forall parts i off, 0 <= i < zlen parts -> 0 <= off <= zlen (znth [] i parts) ->
  zdrop (pre i parts + off) (concat parts) = zdrop off (znth [] i parts) ++ concat (zdrop (i + 1) parts).
Proof.
  induction parts as [|p r IH]; intros i off H Ho; [cbn in H; lia|].
  rewrite zlen_cons in H. destruct (Z.eq_dec i 0) as [->|Hi].
  - rewrite pre_0. change (znth [] 0 (p :: r)) with p in *. change (zdrop (0 + 1) (p :: r)) with r.
    simpl concat. rewrite zdrop_app_le by lia. reflexivity.
  - rewrite znth_succ in * by lia. rewrite pre_cons by lia. rewrite zdrop_succ by lia.
    simpl concat. pose proof (pre_nonneg (i - 1) r).
    rewrite zdrop_app_ge by lia. replace (zlen p + pre (i - 1) r + off - zlen p) with (pre (i - 1) r + off) by lia.
    rewrite IH by lia. replace (i - 1 + 1) with (i + 1 - 1) by lia. reflexivity.
Qed.

Lemma zdrop_cons_znth : forall A (d : A) l i, 0 <= i < zlen l -> zdrop i l = znth d i l :: zdrop (i + 1) l.
Proof.
  induction l as [|x l IH]; intros i H; [cbn in H; lia|].
  rewrite zlen_cons in H. destruct (Z.eq_dec i 0) as [->|Hi]; [reflexivity|].
  rewrite zdrop_succ, znth_succ by lia. rewrite IH by lia. f_equal.
  rewrite zdrop_succ by lia. f_equal. lia.
Qed.

(** ** The invariant *)
Definition WI (parts : list (list Z)) (w : split) : Prop :=
  w_parts w = parts /\ w_closed w = false /\ 0 <= w_idx w < zlen parts /\ 0 <= w_off w /\
  w_pos w = pre (w_idx w) parts + w_off w /\
  (w_idx w = zlen parts - 1 \/ w_off w <= zlen (znth [] (w_idx w) parts)).

Lemma pyget_pos : forall A (d : A) i l, 0 <= i -> pyget d i l = znth d i l.
Proof. intros. unfold pyget. destruct (Z.ltb_spec i 0); auto; lia. Qed.

Lemma offsets_nth : forall parts i, 0 <= i < zlen parts -> pyget 0 i (offsets parts) = pre i parts.
Proof. intros. rewrite pyget_pos by lia. unfold offsets. rewrite offsets_from_nth by auto. lia. Qed.

Lemma split_open_WI : forall parts w, split_open parts = Ok w -> WI parts w /\ w_pos w = 0.
Proof.
  intros parts w H. destruct parts as [|p r]; [discriminate|]. inversion H; subst. clear H.
  pose proof (zlen_nonneg r).
  unfold WI. cbn -[offsets pyget]. rewrite offsets_nth by (rewrite zlen_cons; lia). rewrite pre_0.
  split; auto. repeat split; auto; try (rewrite zlen_cons; lia); try lia. right. apply zlen_nonneg.
Qed.

Lemma seek_abs_WI : forall parts w p, WI parts w -> 0 <= p ->
  exists w', split_seek_abs p w = (w', None) /\ WI parts w' /\ w_pos w' = p.
Proof.
  intros parts w p (Hp & Hc & Hi & Ho & Hpos & HL) H.
  assert (Hne : parts <> []) by (intro HE; rewrite HE in Hi; cbn in Hi; lia).
  unfold split_seek_abs, open_part. rewrite Hp. unfold offsets at 1.
  pose proof (bisect_bounds parts 0 p Hne H) as HB. cbv zeta in HB. fold (offsets parts) in HB.
  set (k := bisect (offsets parts) p - 1) in *. destruct HB as (Hk & H1 & H2). rewrite !Z.add_0_l in *.
  unfold offsets at 1. fold (offsets parts). fold k.
  cbn [w_pos]. rewrite offsets_nth by auto.
  destruct (Z.ltb_spec (p - pre k parts) 0); [lia|].
  eexists; split; [reflexivity|]. unfold WI. cbn [w_parts w_closed w_idx w_off w_pos].
  split; [|lia]. repeat split; auto; try lia.
  destruct H2 as [H2|H2]; [left; auto|]. rewrite pre_step in H2 by auto. lia.
Qed.

Lemma seek_abs_neg : forall parts w p, w_parts w = parts -> p < 0 -> exists w',
  split_seek_abs p w = (w', Some OSError) /\ w_parts w' = parts /\ w_closed w' = w_closed w.
Proof.
  intros parts w p Hp H. unfold split_seek_abs, open_part. rewrite Hp.
  assert (HB : bisect (offsets parts) p = 0) by (apply bisect_neg; lia). rewrite HB. change (0 - 1) with (-1). cbn [w_pos].
  assert (HO : 0 <= pyget 0 (-1) (offsets parts)).
  { unfold pyget. destruct (Z.ltb_spec (-1) 0); [|lia]. unfold offsets.
    destruct parts as [|q r].
    - simpl. cbn. lia.
    - pose proof (zlen_nonneg r).
      rewrite offsets_from_len by congruence. rewrite offsets_from_nth; [|rewrite zlen_cons; lia].
      pose proof (pre_nonneg (-1 + zlen (q :: r)) (q :: r)). lia. }
  destruct (Z.ltb_spec (p - pyget 0 (-1) (offsets parts)) 0); [|lia].
  eexists; split; [reflexivity|]. auto.
Qed.

(** Reading: the wrapper returns a prefix of what the concatenation returns,
    equal when the part after the current one holds the rest. *)
Lemma read_WI : forall parts w n, WI parts w -> 0 <= n ->
  exists w' d, split_read n w = (w', Ok d) /\ WI parts w' /\ w_pos w' = w_pos w + zlen d /\
    prefix_of d (ztake n (zdrop (w_pos w) (concat parts))) /\
    ((forall p, In p (interior parts) -> n <= zlen p) ->
      d = ztake n (zdrop (w_pos w) (concat parts))).
Proof.
  intros parts w n (Hp & Hc & Hi & Ho & Hpos & HL) Hn.
  unfold split_read. rewrite Hc. unfold part. rewrite Hp. rewrite pyget_pos by lia.
  unfold f_read. cbn [f_pos f_data]. destruct (Z.ltb_spec n 0); [lia|].
  set (i := w_idx w) in *. set (P := znth [] i parts) in *. set (off := w_off w) in *.
  set (d1 := ztake n (zdrop off P)).
  assert (Hd1 : zlen d1 = Z.min n (Z.max 0 (zlen P - off))).
  { unfold d1. rewrite zlen_ztake, zlen_zdrop by lia. auto. }
  unfold nfiles. rewrite Hp.
  destruct ((zlen d1 <? n) && (i <? zlen parts - 1)) eqn:E.
  - apply andb_true_iff in E. destruct E as [E1 E2].
    apply Z.ltb_lt in E1. apply Z.ltb_lt in E2.
    assert (HoP : off <= zlen P) by (destruct HL; [lia|auto]).
    unfold open_next, open_part, nfiles. cbn [w_parts w_idx w_off w_pos w_closed].
    rewrite Z.min_l by lia. rewrite pyget_pos by lia. rewrite offsets_nth by lia.
    set (Q := znth [] (i + 1) parts).
    destruct (Z.ltb_spec (n - zlen d1) 0); [lia|].
    rewrite zdrop_0 by lia. set (d2 := ztake (n - zlen d1) Q).
    assert (Hd2 : zlen d2 = Z.min (n - zlen d1) (zlen Q)) by (unfold d2; rewrite zlen_ztake; lia).
    assert (Hd1P : d1 = zdrop off P).
    { unfold d1. apply ztake_all. rewrite zlen_zdrop by lia. lia. }
    pose proof (pre_step parts i ltac:(lia)) as HS. fold P in HS.
    assert (HC : zdrop (w_pos w) (concat parts) = d1 ++ concat (zdrop (i + 1) parts)).
    { rewrite Hpos. rewrite concat_from by (fold P; lia). fold P. rewrite <- Hd1P. auto. }
    assert (HC2 : concat (zdrop (i + 1) parts) = Q ++ concat (zdrop (i + 2) parts)).
    { rewrite (zdrop_cons_znth _ [] parts (i + 1)) by lia.
      replace (i + 1 + 1) with (i + 2) by lia. reflexivity. }
    eexists _, _. split; [reflexivity|].
    split; [|split; [|split]].
    + unfold WI. cbn [w_parts w_closed w_idx w_off w_pos]. cbn [f_pos f_data]. pose proof (zlen_nonneg Q). split; [auto|]. split; [auto|]. split; [lia|]. split; [lia|]. split; [lia|].
      right. fold Q. lia.
    + cbn [w_pos]. rewrite zlen_app. lia.
    + rewrite HC, ztake_app_ge by lia. rewrite HC2. unfold d2.
      destruct (Z_le_gt_dec (n - zlen d1) (zlen Q)).
      * exists []. rewrite app_nil_r. rewrite ztake_app_le by lia. auto.
      * rewrite ztake_app_ge by lia. rewrite (ztake_all (n - zlen d1) Q) by lia.
        eexists. rewrite <- app_assoc. reflexivity.
    + intros HI. rewrite HC, ztake_app_ge by lia. rewrite HC2. unfold d2. f_equal.
      destruct (Z.eq_dec (i + 2) (zlen parts)) as [Hlast|Hmid].
      * rewrite (zdrop_all (i + 2) parts) by lia. simpl. rewrite app_nil_r. auto.
      * assert (HQ : In Q (interior parts)).
        { unfold interior, Q. destruct parts as [|p0 r]; [cbn in Hi; lia|].
          rewrite znth_succ by lia. rewrite zlen_cons in *. simpl tl.
          replace (i + 1 - 1) with i by lia.
          assert (Hr : r <> []) by (intro; subst; rewrite zlen_nil in *; lia).
          rewrite (app_removelast_last [] Hr) at 1.
          assert (HLr : zlen r = zlen (removelast r) + 1).
          { rewrite (app_removelast_last [] Hr) at 1. rewrite zlen_app. reflexivity. }
          rewrite znth_app_l by lia. apply znth_In. lia. }
        specialize (HI Q HQ). rewrite ztake_app_le by lia. auto.
  - eexists _, _. split; [reflexivity|].
    assert (HX : d1 = ztake n (zdrop (w_pos w) (concat parts))).
    { destruct (Z_le_gt_dec off (zlen P)) as [Hle|Hgt].
      - rewrite Hpos. rewrite concat_from by (fold P; lia). fold P.
        apply andb_false_iff in E. destruct E as [E|E]; apply Z.ltb_ge in E.
        + rewrite ztake_app_le; auto. rewrite zlen_zdrop by lia. lia.
        + rewrite (zdrop_all (i + 1) parts) by lia. simpl. rewrite app_nil_r. auto.
      - destruct HL as [HL|HL]; [|lia].
        unfold d1. rewrite (zdrop_all off P) by lia.
        rewrite zdrop_all; auto.
        rewrite <- pre_total. replace (zlen parts) with (i + 1) by lia.
        rewrite pre_step by lia. fold P. lia. }
    split; [|split; [|split]].
    + unfold WI. cbn [w_parts w_closed w_idx w_off w_pos]. fold i. fold P.
      repeat split; auto; try lia.
    + reflexivity.
    + rewrite <- HX. exists []. rewrite app_nil_r. auto.
    + auto.
Qed.

(** ** Refinement of a whole history *)
Definition RF (parts : list (list Z)) (w : split) (f : file) : Prop :=
  WI parts w /\ f_data f = concat parts /\ f_pos f = w_pos w.

Lemma RF_pos_nonneg : forall parts w f, RF parts w f -> 0 <= f_pos f.
Proof.
  intros parts w f ((Hp & Hc & Hi & Ho & Hpos & HL) & _ & H). rewrite H, Hpos.
  pose proof (pre_nonneg (w_idx w) parts). lia.
Qed.

Lemma step_RF : forall parts w f o, RF parts w f -> plain_call parts o ->
  (forall e, snd (f_step f o) <> Exc e) ->
  snd (split_step w o) = snd (f_step f o) /\ RF parts (fst (split_step w o)) (fst (f_step f o)).
Proof.
  intros parts w f o HR HP HE. destruct HR as (HW & Hd & Hpos).
  pose proof HW as (Hpp & Hc & Hi & Ho & Hwp & HL).
  destruct o as [n|p wh|]; simpl in HP.
  - destruct HP as [Hn HI].
    destruct (read_WI parts w n HW Hn) as (w' & d & E & HW' & Hp' & _ & HX). specialize (HX HI).
    unfold split_step, f_step. rewrite E. unfold f_read.
    destruct (Z.ltb_spec n 0); [lia|]. rewrite Hd, Hpos, <- HX. cbn [fst snd].
    split; auto. unfold RF. cbn [f_data f_pos]. split; auto.
  - unfold f_step, f_seek in *. unfold split_step, split_seek. rewrite Hc.
    rewrite Hd, Hpos in *.
    destruct HP as [->|[->|[-> ->]]]; cbn [Z.eqb] in *.
    + destruct (Z.ltb_spec p 0); [exfalso; eapply HE; reflexivity|].
      destruct (seek_abs_WI parts w p HW ltac:(lia)) as (w' & E & HW' & Hp').
      rewrite E. cbn. split; auto. unfold RF. cbn. auto.
    + change (Pos.eqb 1 1) with true in *. cbn iota in *.
      destruct (Z.ltb_spec (w_pos w + p) 0); [exfalso; eapply HE; reflexivity|].
      destruct (seek_abs_WI parts w (w_pos w + p) HW ltac:(lia)) as (w' & E & HW' & Hp').
      rewrite E. cbn. split; auto. unfold RF. cbn. auto.
    + change (Pos.eqb 2 1) with false in *. cbn iota in *.
      rewrite Hpp, total_size_concat, Z.sub_0_r, Z.add_0_r in *.
      pose proof (zlen_nonneg (concat parts)).
      destruct (Z.ltb_spec (zlen (concat parts)) 0); [lia|].
      destruct (seek_abs_WI parts w (zlen (concat parts)) HW ltac:(lia)) as (w' & E & HW' & Hp').
      rewrite E. cbn. split; auto. unfold RF. cbn. auto.
  - cbn. unfold split_tell, f_tell. rewrite Hc, Hpos. split; auto. unfold RF. auto.
Qed.

Lemma runs_RF : forall parts os w f, RF parts w f -> Forall (plain_call parts) os ->
  no_exception (snd (fruns f_step f os)) ->
  snd (fruns split_step w os) = snd (fruns f_step f os) /\
  RF parts (fst (fruns split_step w os)) (fst (fruns f_step f os)).
Proof.
  intros parts os. induction os as [|o r IH]; intros w f HR HP HN; [simpl; auto|].
  inversion HP as [|? ? Ho Hr]; subst. cbn [fruns] in *.
  assert (HE : forall e, snd (f_step f o) <> Exc e).
  { intros e HE. apply (HN e). destruct (f_step f o) as [f1 x]. destruct (fruns f_step f1 r). left. exact HE. }
  destruct (step_RF parts w f o HR Ho HE) as [H1 H2].
  destruct (split_step w o) as [w1 x1], (f_step f o) as [f1 x2]. cbn [fst snd] in *. subst x1.
  assert (HN' : no_exception (snd (fruns f_step f1 r))).
  { intros e HI. apply (HN e). destruct (fruns f_step f1 r). right. exact HI. }
  destruct (IH w1 f1 H2 Hr HN') as [H3 H4].
  destruct (fruns split_step w1 r) as [w2 y1], (fruns f_step f1 r) as [f2 y2]. cbn [fst snd] in *.
  subst. auto.
Qed.

Lemma open_RF : forall parts w, split_open parts = Ok w -> RF parts w (joined parts).
Proof. intros parts w H. destruct (split_open_WI _ _ H). unfold RF. cbn. auto. Qed.

(** ** Reading on until nothing comes *)
(** FilePositionSaver on an ordinary file *)
Lemma f_step_data : forall f o, f_data (fst (f_step f o)) = f_data f.
Proof.
  intros f o. destruct o; cbn; auto.
  unfold f_seek. destruct (_ <? 0); auto.
Qed.
Lemma body_data : forall os f, f_data (fst (body f_step f os)) = f_data f.
Proof.
  induction os as [|o r IH]; intro f; cbn [body]; auto.
  pose proof (f_step_data f o) as H. destruct (f_step f o) as [f1 x]. cbn [fst] in H.
  destruct x; cbn [fst]; try (rewrite IH); auto.
Qed.

Lemma f_with_saver : forall f os, 0 <= f_pos f ->
  with_saver f_step f os = (f, snd (body f_step f os)).
Proof.
  intros f os H. unfold with_saver. cbn [f_step]. unfold f_tell.
  pose proof (body_data os f) as Hd. destruct (body f_step f os) as [f1 e]. cbn [fst snd] in *.
  unfold f_seek. cbn [Z.eqb].
  destruct (Z.ltb_spec (f_pos f) 0); [lia|]. rewrite Hd. destruct f; auto.
Qed.

(** On the wrapper, including bodies with a failing seek. *)
Lemma split_step_keeps : forall parts w o, w_parts w = parts -> w_closed w = false ->
  w_parts (fst (split_step w o)) = parts /\ w_closed (fst (split_step w o)) = false.
Proof.
  intros parts w o Hp Hc. destruct o as [n|p wh|]; cbn [split_step].
  - unfold split_read. rewrite Hc. unfold f_read.
    destruct (_ && _); cbn; auto.
  - unfold split_seek. rewrite Hc.
    assert (HX : forall q, w_parts (fst (split_seek_abs q w)) = parts /\ w_closed (fst (split_seek_abs q w)) = false).
    { intro q. unfold split_seek_abs. destruct (_ <? 0); cbn; auto. }
    destruct (wh =? 0); [|destruct (wh =? 1)];
    match goal with |- context [split_seek_abs ?q w] =>
      specialize (HX q); destruct (split_seek_abs q w); cbn in *; auto end.
  - auto.
Qed.
Lemma split_body_keeps : forall parts os w, w_parts w = parts -> w_closed w = false ->
  w_parts (fst (body split_step w os)) = parts /\ w_closed (fst (body split_step w os)) = false.
Proof.
  intros parts os. induction os as [|o r IH]; intros w Hp Hc; cbn [body]; auto.
  destruct (split_step_keeps parts w o Hp Hc) as [H1 H2].
  destruct (split_step w o) as [w1 x]. cbn [fst] in *. destruct x; cbn [fst]; auto.
Qed.

Lemma seek_abs_WI' : forall parts w p, w_parts w = parts -> w_closed w = false -> parts <> [] -> 0 <= p ->
  exists w', split_seek_abs p w = (w', None) /\ WI parts w' /\ w_pos w' = p.
Proof.
  intros parts w p Hp Hc Hne H.
  assert (Hi : 0 < zlen parts).
  { destruct parts; [congruence|]. rewrite zlen_cons. pose proof (zlen_nonneg parts). lia. }
  set (w0 := mkSplit parts 0 0 0 false).
  assert (HW : WI parts w0).
  { unfold WI, w0. cbn -[pre]. rewrite pre_0. repeat split; auto; try lia. right. apply zlen_nonneg. }
  destruct (seek_abs_WI parts w0 p HW H) as (w' & E & HW' & Hp').
  exists w'. split; auto. unfold split_seek_abs, open_part in *. rewrite Hp, Hc in *. exact E.
Qed.

Lemma split_with_saver : forall parts w os, WI parts w ->
  snd (with_saver split_step w os) = snd (body split_step w os) /\
  WI parts (fst (with_saver split_step w os)) /\ w_pos (fst (with_saver split_step w os)) = w_pos w.
Proof.
  intros parts w os HW. pose proof HW as (Hpp & Hc & Hi & Ho & Hwp & HL).
  unfold with_saver. cbn [split_step]. unfold split_tell. rewrite Hc.
  destruct (split_body_keeps parts os w Hpp Hc) as [H1 H2].
  destruct (body split_step w os) as [w1 e]. cbn [fst snd] in *.
  unfold split_seek. rewrite H2. cbn [Z.eqb].
  assert (Hne : parts <> []) by (intro HE; rewrite HE in Hi; cbn in Hi; lia).
  assert (H0 : 0 <= w_pos w) by (rewrite Hwp; pose proof (pre_nonneg (w_idx w) parts); lia).
  destruct (seek_abs_WI' parts w1 (w_pos w) H1 H2 Hne H0) as (w' & E & HW' & Hp').
  rewrite E. cbn. auto.
Qed.

Lemma reach_WI : forall parts os w w0, split_open parts = Ok w0 ->
  Forall (fun o => match o with Read n => 0 <= n | _ => True end) os ->
  no_exception (snd (fruns split_step w0 os)) -> w = fst (fruns split_step w0 os) -> WI parts w.
Proof.
  intros parts os w w0 H HP HN ->. destruct (split_open_WI _ _ H) as [HW _]. clear H. revert w0 HW HN.
  induction os as [|o r IH]; intros w0 HW HN; cbn [fruns] in *; auto.
  inversion HP as [|? ? Ho Hr]; subst.
  assert (HW1 : WI parts (fst (split_step w0 o))).
  { pose proof HW as (Hpp & Hc & Hi & Hof & Hwp & HL). destruct o as [n|p wh|]; auto.
    - destruct (read_WI parts w0 n HW Ho) as (w' & d & E & HW' & _). cbn [split_step]. rewrite E. auto.
    - cbn [split_step] in *. unfold split_seek in *. rewrite Hc in *.
      assert (HX : forall q, (forall e, snd (split_seek_abs q w0) <> Some e) -> WI parts (fst (split_seek_abs q w0))).
      { intros q Hq. destruct (Z_lt_ge_dec q 0) as [Hl|Hge].
        - destruct (seek_abs_neg parts w0 q Hpp Hl) as (w' & E & _). rewrite E in Hq. destruct (Hq OSError). auto.
        - destruct (seek_abs_WI parts w0 q HW ltac:(lia)) as (w' & E & HW' & _). rewrite E. auto. }
      destruct (wh =? 0); [|destruct (wh =? 1)];
      match goal with |- context [split_seek_abs ?q w0] =>
        specialize (HX q); destruct (split_seek_abs q w0) as [w1 [e|]]; cbn [fst snd] in *; [|apply HX; congruence];
        exfalso; apply (HN e); destruct (fruns split_step w1 r); left; reflexivity end. }
  destruct (split_step w0 o) as [w1 x]. cbn [fst] in *.
  assert (HN' : no_exception (snd (fruns split_step w1 r))).
  { intros e HI. apply (HN e). destruct (fruns split_step w1 r). right. exact HI. }
  specialize (IH Hr w1 HW1 HN'). destruct (fruns split_step w1 r). auto.
Qed.
