(** Proofs about the DR spectrometer reader. *)
From Coq Require Import List ZArith Lia Bool.
From Verif Require Import M_Drspec S_Drspec S_DrspecRun S_Cor P_Drx P_Drx2 P_Cor P_Vdif2.
Import ListNotations.
Open Scope Z_scope.
Ltac Zify.zify_post_hook ::= Z.div_mod_to_equations.

(** ** Formats *)
Definition lz_eqb (a b : list Z) : bool := if list_eq_dec Z.eq_dec a b then true else false.
Lemma lz_eqb_eq : forall a b, lz_eqb a b = true -> a = b.
Proof. intros a b H. unfold lz_eqb in H. destruct (list_eq_dec Z.eq_dec a b); congruence. Qed.
Lemma products_ok : forall fmt, 0 <= fmt < 256 ->
  data_products fmt = products fmt /\ pol_count 8 fmt = zlen (products fmt).
Proof.
  intros fmt H.
  assert (S := zseq_sweep (fun v => lz_eqb (data_products v) (products v) && (pol_count 8 v =? zlen (products v))) 0 256).
  specialize (S ltac:(vm_compute; reflexivity) fmt ltac:(lia)). cbv beta in S. apply andb_prop in S. destruct S as [S1 S2].
  split; [apply lz_eqb_eq; auto|lia].
Qed.

Lemma exposed_eq : forall h data,
  exposed h data = map (fun b => (b, (znth [] (b mod 4) (fst (drs_parse h data)), znth [] (b mod 4) (snd (drs_parse h data))))) (data_products (s_format h)).
Proof.
  intros h data. unfold exposed, data_products. induction (zseq 0 8) as [|b l IH]; [reflexivity|].
  cbn [flat_map]. rewrite map_app, IH. destruct (Z.land (s_format h) (2 ^ b) =? 0); reflexivity.
Qed.

(** ** Lanes *)
Lemma znth_concat : forall np rows i j, Forall (fun row : list Z => zlen row = np) rows ->
  0 <= i < zlen rows -> 0 <= j < np -> znth 0 (np * i + j) (concat rows) = znth 0 j (znth [] i rows).
Proof.
  intros np rows. induction rows as [|row rows IH]; intros i j H Hi Hj; [change (zlen (@nil (list Z))) with 0 in Hi; lia|].
  inversion H as [|? ? H1 H2]; subst. rewrite zlen_cons in Hi. cbn [concat]. destruct (Z.eq_dec i 0) as [->|].
  - rewrite Z.mul_0_r, Z.add_0_l. rewrite znth_app_l by lia. reflexivity.
  - rewrite znth_app_r by nia. replace (zlen row * i + j - zlen row) with (zlen row * (i - 1) + j) by ring.
    rewrite IH by (auto; lia). f_equal. unfold znth. destruct (i - 1 <? 0) eqn:E1; [lia|]. destruct (i <? 0) eqn:E2; [lia|].
    replace (Z.to_nat i) with (S (Z.to_nat (i - 1))) by lia. reflexivity.
Qed.
Lemma concat_zlen : forall np rows, Forall (fun row : list Z => zlen row = np) rows -> zlen (concat rows) = np * zlen rows.
Proof.
  intros np rows H. induction H as [|row rows H1 H2 IH]; [cbn; lia|]. cbn [concat]. rewrite zlen_app, IH, zlen_cons. lia.
Qed.
Lemma zseq_zlen : forall n lo, zlen (zseq lo n) = Z.of_nat n.
Proof. induction n as [|n IH]; intro lo; [reflexivity|]. cbn [zseq]. rewrite zlen_cons, IH. lia. Qed.
Lemma znth_zseq : forall n lo i, 0 <= i < Z.of_nat n -> znth 0 i (zseq lo n) = lo + i.
Proof.
  induction n as [|n IH]; intros lo i H; [lia|]. cbn [zseq]. destruct (Z.eq_dec i 0) as [->|]; [cbn; lia|].
  unfold znth. destruct (i <? 0) eqn:E; [lia|]. replace (Z.to_nat i) with (S (Z.to_nat (i - 1))) by lia. cbn [nth].
  specialize (IH (lo + 1) (i - 1) ltac:(lia)). unfold znth in IH. destruct (i - 1 <? 0) eqn:E2; [lia|]. rewrite IH. lia.
Qed.

Lemma lane_rows : forall h rows0 rows1 np j n t,
  Forall (fun row : list Z => zlen row = np) rows0 -> Forall (fun row : list Z => zlen row = np) rows1 ->
  zlen rows0 = s_nfreq h -> zlen rows1 = s_nfreq h -> 0 <= j < np -> t = 0 \/ t = 1 ->
  lane h (concat rows0 ++ concat rows1) (t * np * s_nfreq h) np j n =
  map (fun row => CVal (znth 0 j row) n) (if t =? 0 then rows0 else rows1).
Proof.
  intros h rows0 rows1 np j n t F0 F1 L0 L1 Hj Ht. unfold lane.
  pose proof (zlen_nonneg rows0) as P0.
  apply (znth_ext CZero).
  - rewrite !zlen_map, zseq_zlen. destruct (t =? 0); lia.
  - intros i Hi. rewrite zlen_map, zseq_zlen in Hi. rewrite (znth_map _ _ _ 0) by (rewrite zseq_zlen; auto).
    rewrite znth_zseq by auto. rewrite Z.add_0_l. rewrite (znth_map _ _ _ (@nil Z)) by (destruct (t =? 0); lia).
    unfold peek. pose proof (concat_zlen np rows0 F0) as C0. pose proof (concat_zlen np rows1 F1) as C1.
    assert (B : 0 <= np * i + j < np * s_nfreq h) by nia.
    rewrite zlen_app, C0, C1, L0, L1. destruct Ht as [-> | ->]; cbn [Z.eqb].
    + destruct ((0 <=? 0 * np * s_nfreq h + np * i + j) && (0 * np * s_nfreq h + np * i + j <? np * s_nfreq h + np * s_nfreq h))%bool eqn:E; [|lia].
      apply (f_equal (fun w => CVal w n)). replace (0 * np * s_nfreq h + np * i + j) with (np * i + j) by ring. rewrite znth_app_l by lia. apply znth_concat; auto; lia.
    + destruct ((0 <=? 1 * np * s_nfreq h + np * i + j) && (1 * np * s_nfreq h + np * i + j <? np * s_nfreq h + np * s_nfreq h))%bool eqn:E; [|lia].
      apply (f_equal (fun w => CVal w n)). rewrite znth_app_r by lia. rewrite C0, L0. replace (1 * np * s_nfreq h + np * i + j - np * s_nfreq h) with (np * i + j) by ring.
      apply znth_concat; auto; lia.
Qed.

(** ** The header *)
Lemma le_val_small : forall n v, 0 <= v < 256 ^ Z.of_nat n -> le_val (le n v) = v.
Proof. intros. rewrite le_val_le. apply Z.mod_small. auto. Qed.

Lemma list2 : forall (A : Type) (d : A) (l : list A), zlen l = 2 -> exists a b, l = [a; b].
Proof. intros A d l H. unfold zlen in H. destruct l as [|a [|b [|? ?]]]; cbn in H; try lia. eauto. Qed.
Lemma list4 : forall (A : Type) (d : A) (l : list A), zlen l = 4 -> exists a b c e, l = [a; b; c; e].
Proof. intros A d l H. unfold zlen in H. destruct l as [|a [|b [|c [|e [|? ?]]]]]; cbn in H; try lia. eauto 6. Qed.

Lemma drs_head_zlen : forall r, drs_ok r -> zlen (concat (drs_head_chunks r)) = 76.
Proof.
  intros r (_ & _ & _ & H1 & _ & H2 & _ & H3 & _ & _ & _ & _ & _ & _ & _ & H4 & _).
  destruct (list2 _ 0 _ H1) as (a1 & a2 & E1). destruct (list4 _ 0 _ H2) as (b1 & b2 & b3 & b4 & E2).
  destruct (list4 _ 0 _ H3) as (c1 & c2 & c3 & c4 & E3). destruct (list4 _ 0 _ H4) as (d1 & d2 & d3 & d4 & E4).
  unfold drs_head_chunks. rewrite E1, E2, E3, E4. cbn [map app concat]. rewrite !zlen_app, !le_zlen. reflexivity.
Qed.

Lemma drs_head_ok : forall r, drs_ok r ->
  drs_head (concat (drs_head_chunks r)) =
  mkSH 3235823838 (q_tag r) (q_toff r) (q_dec r) (q_freq r) (q_fills r) (q_errors r) (q_beam r) (q_format r)
       (q_version r) (q_flags r) (q_nfreq r) (q_nints r) (q_sats r) 3977047308.
Proof.
  intros r (Htag & Htoff & Hdec & H1 & F1 & H2 & F2 & H3 & F3 & Hbeam & Hfmt & Hver & Hfl & Hnf & Hni & H4 & F4 & _).
  destruct (list2 _ 0 _ H1) as (a1 & a2 & E1). destruct (list4 _ 0 _ H2) as (b1 & b2 & b3 & b4 & E2).
  destruct (list4 _ 0 _ H3) as (c1 & c2 & c3 & c4 & E3). destruct (list4 _ 0 _ H4) as (d1 & d2 & d3 & d4 & E4).
  set (C := drs_head_chunks r).
  assert (EC : C = [le 4 3235823838; le 8 (q_tag r); le 2 (q_toff r); le 2 (q_dec r); le 4 a1; le 4 a2;
     le 4 b1; le 4 b2; le 4 b3; le 4 b4; le 1 c1; le 1 c2; le 1 c3; le 1 c4;
     le 1 (q_beam r); le 1 (q_format r); le 1 (q_version r); le 1 (q_flags r); le 4 (q_nfreq r); le 4 (q_nints r);
     le 4 d1; le 4 d2; le 4 d3; le 4 d4; le 4 3977047308]).
  { unfold C, drs_head_chunks. rewrite E1, E2, E3, E4. reflexivity. }
  rewrite E1, E2, E3, E4 in *. unfold u32 in *.
  repeat match goal with H : Forall _ (_ :: _) |- _ => inversion H; clear H; subst end.
  assert (SL : forall k i n v, nth k C [] = le n v -> i = zlen (concat (firstn k C)) -> 0 <= v < 256 ^ Z.of_nat n ->
     le_val (slice i (Z.of_nat n) (concat C)) = v).
  { intros k i n v E Hi Hv. rewrite (slice_chunk k) by (auto; rewrite E, le_zlen; reflexivity). rewrite E. apply le_val_small. auto. }
  clear E1 E2 E3 E4. rewrite EC in SL. rewrite EC. 
  change 4 with (Z.of_nat 4) in SL. unfold drs_head, u32s. cbn [zseq map Z.add Z.mul Pos.mul Pos.add Pos.succ].
  pose proof (SL 0%nat 0 4%nat 3235823838 eq_refl eq_refl ltac:(cbn; lia)) as S0.
  pose proof (SL 1%nat 4 8%nat (q_tag r) eq_refl eq_refl Htag) as S1.
  pose proof (SL 2%nat 12 2%nat (q_toff r) eq_refl eq_refl Htoff) as S2.
  pose proof (SL 3%nat 14 2%nat (q_dec r) eq_refl eq_refl Hdec) as S3.
  pose proof (SL 4%nat 16 4%nat a1 eq_refl eq_refl ltac:(assumption)) as S4.
  pose proof (SL 5%nat 20 4%nat a2 eq_refl eq_refl ltac:(assumption)) as S5.
  pose proof (SL 6%nat 24 4%nat b1 eq_refl eq_refl ltac:(assumption)) as S6.
  pose proof (SL 7%nat 28 4%nat b2 eq_refl eq_refl ltac:(assumption)) as S7.
  pose proof (SL 8%nat 32 4%nat b3 eq_refl eq_refl ltac:(assumption)) as S8.
  pose proof (SL 9%nat 36 4%nat b4 eq_refl eq_refl ltac:(assumption)) as S9.
  pose proof (SL 10%nat 40 1%nat c1 eq_refl eq_refl ltac:(assumption)) as S10.
  pose proof (SL 11%nat 41 1%nat c2 eq_refl eq_refl ltac:(assumption)) as S11.
  pose proof (SL 12%nat 42 1%nat c3 eq_refl eq_refl ltac:(assumption)) as S12.
  pose proof (SL 13%nat 43 1%nat c4 eq_refl eq_refl ltac:(assumption)) as S13.
  pose proof (SL 14%nat 44 1%nat (q_beam r) eq_refl eq_refl ltac:(assumption)) as S14.
  pose proof (SL 15%nat 45 1%nat (q_format r) eq_refl eq_refl ltac:(assumption)) as S15.
  pose proof (SL 16%nat 46 1%nat (q_version r) eq_refl eq_refl ltac:(assumption)) as S16.
  pose proof (SL 17%nat 47 1%nat (q_flags r) eq_refl eq_refl ltac:(assumption)) as S17.
  pose proof (SL 18%nat 48 4%nat (q_nfreq r) eq_refl eq_refl Hnf) as S18.
  pose proof (SL 19%nat 52 4%nat (q_nints r) eq_refl eq_refl Hni) as S19.
  pose proof (SL 20%nat 56 4%nat d1 eq_refl eq_refl ltac:(assumption)) as S20.
  pose proof (SL 21%nat 60 4%nat d2 eq_refl eq_refl ltac:(assumption)) as S21.
  pose proof (SL 22%nat 64 4%nat d3 eq_refl eq_refl ltac:(assumption)) as S22.
  pose proof (SL 23%nat 68 4%nat d4 eq_refl eq_refl ltac:(assumption)) as S23.
  pose proof (SL 24%nat 72 4%nat 3977047308 eq_refl eq_refl ltac:(cbn; lia)) as S24.
  cbn [Z.of_nat Pos.of_succ_nat Pos.succ] in *.
  rewrite S0, S1, S2, S3, S4, S5, S6, S7, S8, S9, S10, S11, S12, S13, S14, S15, S16, S17, S18, S19, S20, S21, S22, S23, S24.
  reflexivity.
Qed.

(** ** A whole frame *)
Definition no_overflow (r : drs_rec) : Prop :=
  forall t b, t = 0 \/ t = 1 -> In b (products (q_format r)) -> q_nfreq r * fills_of r t b < 2 ^ 32.

Definition head_for (r : drs_rec) : shead :=
  mkSH 3235823838 (q_tag r) (q_toff r) (q_dec r) (q_freq r) (q_fills r) (q_errors r) (q_beam r) (q_format r)
       (q_version r) (q_flags r) (q_nfreq r) (q_nints r) (q_sats r) 3977047308.

Lemma fills_nonneg : forall r t b, drs_ok r -> t = 0 \/ t = 1 -> 0 <= fills_of r t b.
Proof.
  intros r t b (_ & _ & _ & _ & _ & H2 & F2 & _) Ht. destruct (list4 _ 0 _ H2) as (b1 & b2 & b3 & b4 & E2).
  rewrite E2 in F2. unfold u32 in F2. repeat match goal with H : Forall _ (_ :: _) |- _ => inversion H; clear H; subst end.
  unfold fills_of. rewrite E2. destruct Ht as [-> | ->].
  - change (znth 0 (2 * 0) [b1; b2; b3; b4]) with b1. change (znth 0 (2 * 0 + 1) [b1; b2; b3; b4]) with b2.
    destruct (b =? 0), (b =? 3); lia.
  - change (znth 0 (2 * 1) [b1; b2; b3; b4]) with b3. change (znth 0 (2 * 1 + 1) [b1; b2; b3; b4]) with b4.
    destruct (b =? 0), (b =? 3); lia.
Qed.

Lemma norm_ok : forall r t b, drs_ok r -> no_overflow r -> t = 0 \/ t = 1 -> In b (products (q_format r)) ->
  norm (head_for r) (fills_of r t b) = q_nfreq r * fills_of r t b.
Proof.
  intros r t b W N Ht Hb. unfold norm. cbn [head_for s_nfreq]. apply Z.mod_small. split; [|apply N; auto].
  apply Z.mul_nonneg_nonneg; [apply zlen_nonneg|apply fills_nonneg; auto].
Qed.

Lemma spec_lane : forall r t b j, drs_ok r -> no_overflow r -> t = 0 \/ t = 1 -> In b (products (q_format r)) ->
  0 <= j < zlen (products (q_format r)) ->
  lane (head_for r) (drs_words r) (t * zlen (products (q_format r)) * q_nfreq r) (zlen (products (q_format r))) j
       (norm (head_for r) (fills_of r t b)) = spectrum r t b j.
Proof.
  intros r t b j W N Ht Hb Hj. rewrite (norm_ok r t b) by auto. unfold spectrum, drs_words.
  destruct W as (_ & _ & _ & _ & _ & _ & _ & _ & _ & _ & _ & _ & _ & _ & _ & _ & _ & HL & HF).
  apply Forall_app in HF. destruct HF as [F0 F1].
  change (q_nfreq r) with (s_nfreq (head_for r)) at 1. apply lane_rows; auto.
  - eapply Forall_impl; [|exact F0]. intros a [Ha _]. exact Ha.
  - eapply Forall_impl; [|exact F1]. intros a [Ha _]. exact Ha.
Qed.

Lemma In_formats : forall f, In f drs_formats ->
  f = 1 \/ f = 2 \/ f = 4 \/ f = 8 \/ f = 9 \/ f = 6 \/ f = 15 \/ f = 16 \/ f = 32 \/ f = 64 \/ f = 128 \/ f = 144 \/ f = 240.
Proof. intros f H. unfold drs_formats in H. simpl in H. intuition lia. Qed.

Lemma parse_products : forall r j, drs_ok r -> no_overflow r -> In (q_format r) drs_formats ->
  0 <= j < zlen (products (q_format r)) ->
  let b := znth 0 j (products (q_format r)) in
  znth [] (b mod 4) (fst (drs_parse (head_for r) (drs_words r))) = spectrum r 0 b j /\
  znth [] (b mod 4) (snd (drs_parse (head_for r) (drs_words r))) = spectrum r 1 b j.
Proof.
  intros r j W N HF Hj b.
  assert (Hb : In b (products (q_format r))) by (apply znth_In; auto).
  rewrite <- !(spec_lane r) by auto.
  apply In_formats in HF.
  repeat (destruct HF as [HF|HF]);
   (subst b; rewrite HF in *; unfold drs_parse; cbn [head_for s_format]; rewrite HF;
    match goal with |- context [products ?k] => let v := eval vm_compute in (products k) in change (products k) with v in * end;
    repeat rewrite zlen_cons in Hj; change (zlen (@nil Z)) with 0 in Hj;
    assert (J : j = 0 \/ j = 1 \/ j = 2 \/ j = 3) by lia;
    destruct J as [J|[J|[J|J]]]; subst j; try lia; split; reflexivity).
Qed.

Lemma drs_words_zlen : forall r, drs_ok r -> zlen (drs_words r) = 2 * zlen (products (q_format r)) * q_nfreq r.
Proof.
  intros r (_ & _ & _ & _ & _ & _ & _ & _ & _ & _ & _ & _ & _ & _ & _ & _ & _ & HL & HF).
  apply Forall_app in HF. destruct HF as [F0 F1]. unfold drs_words. rewrite zlen_app.
  rewrite !(concat_zlen (zlen (products (q_format r)))).
  - rewrite HL. unfold q_nfreq. ring.
  - eapply Forall_impl; [|exact F1]. intros a [Ha _]. exact Ha.
  - eapply Forall_impl; [|exact F0]. intros a [Ha _]. exact Ha.
Qed.
Lemma drs_words_ok : forall r, drs_ok r -> Forall word32 (drs_words r).
Proof.
  intros r (_ & _ & _ & _ & _ & _ & _ & _ & _ & _ & _ & _ & _ & _ & _ & _ & _ & HL & HF).
  apply Forall_app in HF. destruct HF as [F0 F1]. unfold drs_words. apply Forall_app. split; apply Forall_concat;
    (eapply Forall_impl; [|eassumption]); intros a [_ Ha]; exact Ha.
Qed.
Lemma drs_bytes_zlen : forall r, drs_ok r -> zlen (drs_bytes r) = drs_len r.
Proof.
  intros r W. unfold drs_bytes, drs_len. rewrite zlen_app, drs_head_zlen, (flat_map_zlen _ _ _ 4), drs_words_zlen by (auto; intro; apply le_zlen).
  ring.
Qed.

Lemma read_drspec_gen : forall before after r, drs_ok r ->
  let data := before ++ drs_bytes r ++ after in
  read_drspec (mkFile data (zlen before)) =
    (mkFile data (zlen before + drs_len r), Got (mkSF (head_for r) (exposed (head_for r) (drs_words r)))).
Proof.
  intros before after r W data. unfold read_drspec, data, drs_bytes. rewrite <- !app_assoc.
  pose proof (drs_head_zlen r W) as HZ.
  rewrite (read_at before (concat (drs_head_chunks r)) (flat_map (le 4) (drs_words r) ++ after) 76) by (symmetry; exact HZ).
  rewrite HZ. cbn [Z.eqb Pos.eqb negb]. rewrite drs_head_ok by auto. fold (head_for r). cbn [head_for s_magic1 s_magic2 s_format s_nfreq].
  change ((3235823838 =? 3235823838) && (3977047308 =? 3977047308))%bool with true. cbn [negb].
  assert (HF : 0 <= q_format r < 256) by apply W. destruct (products_ok _ HF) as [_ ->].
  assert (LN : 4 * (zlen (products (q_format r)) * 2) * q_nfreq r = zlen (flat_map (le 4) (drs_words r))).
  { rewrite (flat_map_zlen _ _ _ 4) by (intro; apply le_zlen). rewrite drs_words_zlen by auto. ring. }
  replace (before ++ concat (drs_head_chunks r) ++ flat_map (le 4) (drs_words r) ++ after)
    with ((before ++ concat (drs_head_chunks r)) ++ flat_map (le 4) (drs_words r) ++ after) by (rewrite <- app_assoc; reflexivity).
  replace (zlen before + 76) with (zlen (before ++ concat (drs_head_chunks r))) by (rewrite zlen_app; lia).
  rewrite (read_at (before ++ concat (drs_head_chunks r)) (flat_map (le 4) (drs_words r)) after) by exact LN.
  rewrite <- LN. rewrite Z.eqb_refl. cbn [negb]. rewrite words_le by (apply drs_words_ok; auto).
  f_equal. f_equal. rewrite LN. unfold drs_len. rewrite zlen_app, HZ. rewrite (flat_map_zlen _ _ _ 4), drs_words_zlen by (auto; intro; apply le_zlen). ring.
Qed.

Lemma shows_ok : forall r, drs_ok r -> no_overflow r -> In (q_format r) drs_formats ->
  shows_drs r (mkSF (head_for r) (exposed (head_for r) (drs_words r))).
Proof.
  intros r W N HF. unfold shows_drs. cbn [sf_head sf_out]. cbv zeta.
  do 10 (split; [reflexivity|]). rewrite exposed_eq. cbn [head_for s_format].
  assert (H0 : 0 <= q_format r < 256) by apply W. destruct (products_ok _ H0) as [-> _].
  split; [rewrite map_map; apply map_id|].
  intros j Hj. rewrite (znth_map _ _ _ 0) by auto. destruct (parse_products r j W N HF Hj) as [-> ->]. reflexivity.
Qed.

(** ** Streams *)
Lemma drs_at_end : forall data, read_drspec (mkFile data (zlen data)) = (mkFile data (zlen data), AtEOF).
Proof.
  intro data. unfold read_drspec, f_read. cbn [f_pos f_data Z.ltb Z.compare].
  rewrite zdrop_all by lia. rewrite (ztake_all 76 []) by (cbn; lia).
  change (zlen (@nil Z)) with 0. rewrite Z.add_0_r. reflexivity.
Qed.
Lemma drs_stream : forall rs before, Forall (fun r => drs_ok r /\ no_overflow r /\ In (q_format r) drs_formats) rs ->
  let data := before ++ flat_map drs_bytes rs in
  exists l, drs_reads (1 + length rs) (mkFile data (zlen before)) = (mkFile data (zlen data), l, Some EOFError) /\
    Forall2 shows_drs rs l.
Proof.
  induction rs as [|r rs IH]; intros before H data.
  - exists []. split; [|constructor]. unfold data. cbn [flat_map length Nat.add drs_reads]. rewrite app_nil_r, drs_at_end. reflexivity.
  - inversion H as [|? ? (H1 & H2 & H3) HR]; subst. destruct (IH (before ++ drs_bytes r) HR) as (l & E & F).
    exists (mkSF (head_for r) (exposed (head_for r) (drs_words r)) :: l). split.
    + change (1 + length (r :: rs))%nat with (S (1 + length rs)). remember (1 + length rs)%nat as m. cbn [drs_reads]. unfold data. cbn [flat_map]. rewrite read_drspec_gen by auto.
      rewrite <- drs_bytes_zlen, <- zlen_app by auto. cbv zeta in E. rewrite <- app_assoc in E. 
      rewrite E. reflexivity.
    + constructor; auto. apply shows_ok; auto.
Qed.

(** ** Arbitrary bytes *)
Lemma bytes_le_val_nonneg : forall l, bytes_ok l -> 0 <= le_val l.
Proof. intros. apply le_val_bound. auto. Qed.
Lemma pol_count_nonneg : forall n v, 0 <= pol_count n v.
Proof. induction n; intro v; cbn [pol_count]; [lia|]. destruct (v =? 0); [lia|]. specialize (IHn (Z.land v (v - 1))). lia. Qed.

Lemma read_drspec_total : forall f f' r, bytes_ok (f_data f) -> 0 <= f_pos f <= zlen (f_data f) ->
  read_drspec f = (f', r) ->
  f_data f' = f_data f /\
  match r with
  | Got s => f_pos f' = f_pos f + 76 + 8 * pol_count 8 (s_format (sf_head s)) * s_nfreq (sf_head s) /\ f_pos f' <= zlen (f_data f)
  | BadSync loc => f' = f /\ loc = f_pos f
  | AtEOF => f_pos f' = zlen (f_data f)
  end.
Proof.
  intros f f' r HB Hp E. unfold read_drspec in E.
  destruct (f_read 76 f) as [f1 raw] eqn:E1.
  destruct (f_read_bounds 76 f f1 raw ltac:(lia) Hp E1) as (D1 & P1 & L1 & B1 & S1).
  destruct (zlen raw =? 76) eqn:EZ; cbn [negb] in E.
  2: { inversion E; subst. split; auto. lia. }
  destruct (negb ((s_magic1 (drs_head raw) =? 3235823838) && (s_magic2 (drs_head raw) =? 3977047308))) eqn:EM.
  - assert (SK : fst (f_seek (-76) 1 f1) = f).
    { unfold f_seek. cbn [Z.eqb Pos.eqb]. destruct (f_pos f1 + -76 <? 0) eqn:EN; [lia|]. cbn [fst].
      destruct f as [fd fp]. cbn [f_data f_pos] in *. f_equal; [auto|lia]. }
    rewrite SK in E. inversion E; subst. auto.
  - destruct (f_read (4 * (pol_count 8 (s_format (drs_head raw)) * 2) * s_nfreq (drs_head raw)) f1) as [f2 d] eqn:E2.
    assert (RB : bytes_ok raw).
    { unfold f_read in E1. cbn [Z.ltb Z.compare] in E1. inversion E1. apply bytes_ok_ztake, bytes_ok_zdrop. auto. }
    assert (NN : 0 <= 4 * (pol_count 8 (s_format (drs_head raw)) * 2) * s_nfreq (drs_head raw)).
    { apply Z.mul_nonneg_nonneg; [pose proof (pol_count_nonneg 8 (s_format (drs_head raw))); lia|].
      cbn [drs_head s_nfreq]. apply bytes_le_val_nonneg. apply slice_ok. auto. }
    destruct (f_read_bounds _ f1 f2 d NN ltac:(rewrite D1; lia) E2) as (D2 & P2 & L2 & B2 & S2).
    destruct (zlen d =? 4 * (pol_count 8 (s_format (drs_head raw)) * 2) * s_nfreq (drs_head raw)) eqn:EL; cbn [negb] in E.
    + inversion E; subst. cbn [sf_head]. split; [congruence|]. rewrite D1 in *. lia.
    + inversion E; subst. split; [congruence|]. rewrite D1 in *. lia.
Qed.
