(** Final forms of the DR spectrometer property (C23). *)
From Coq Require Import List ZArith Lia Bool.
From Verif Require Import M_Drspec S_Drspec S_DrspecRun P_Drx P_Drx2 P_Cor P_Drspec.
Import ListNotations.
Open Scope Z_scope.
Ltac Zify.zify_post_hook ::= Z.div_mod_to_equations.

Definition demo_drs (fmt : Z) (np : nat) : drs_rec :=
  mkDrs 286700000000000000 7 10 [222333444; 1111222233] [1000; 900; 800; 2 ^ 20] [0; 1; 0; 255] 3 fmt 2 0 6144 [0; 5; 0; 7]
    (map (fun i => map (fun j => 1000 * i + j) (zseq 1 np)) (zseq 0 3))
    (map (fun i => map (fun j => 2 ^ 31 + 1000 * i + j) (zseq 1 np)) (zseq 0 3)).
Lemma forallb_rng : forall lo hi l, forallb (fun v => (lo <=? v) && (v <? hi)) l = true -> Forall (fun v => lo <= v < hi) l.
Proof.
  intros lo hi l H. rewrite forallb_forall in H. apply Forall_forall. intros x Hx. specialize (H x Hx).
  apply andb_prop in H. destruct H. lia.
Qed.
Lemma forallb_rows : forall (np : Z) (l : list (list Z)),
  forallb (fun row => (zlen row =? np) && forallb (fun v => (0 <=? v) && (v <? 2 ^ 32)) row) l = true ->
  Forall (fun row => zlen row = np /\ Forall u32 row) l.
Proof.
  intros np l H. rewrite forallb_forall in H. apply Forall_forall. intros x Hx. specialize (H x Hx).
  apply andb_prop in H. destruct H as [H1 H2]. split; [lia|apply forallb_rng in H2; exact H2].
Qed.
Lemma demo_drs_ok : forall fmt np, In (fmt, np) [(9, 2%nat); (240, 4%nat); (2, 1%nat); (23, 4%nat); (3, 2%nat)] -> drs_ok (demo_drs fmt np).
Proof.
  intros fmt np H. unfold drs_ok. unfold demo_drs at 1 2 3 4 5 6 7 8 9 10 11 12 13.
  cbn [q_tag q_toff q_dec q_freq q_fills q_errors q_beam q_format q_version q_flags].
  assert (B : forall z lo hi, (lo <=? z) && (z <? hi) = true -> lo <= z < hi)
    by (intros z lo hi E; apply andb_prop in E; destruct E; lia).
  do 3 (split; [apply B; reflexivity|]). split; [reflexivity|]. split; [apply forallb_rng; reflexivity|].
  split; [reflexivity|]. split; [apply forallb_rng; reflexivity|].
  split; [reflexivity|]. split; [apply forallb_rng; reflexivity|].
  cbn [In] in H.
  repeat (destruct H as [H|H]; [injection H as <- <-|]); try contradiction;
  (do 4 (split; [apply B; reflexivity|]); split; [apply B; reflexivity|]; split; [apply B; reflexivity|];
   split; [reflexivity|]; split; [apply forallb_rng; reflexivity|]; split; [reflexivity|];
   apply forallb_rows; vm_compute; reflexivity).
Qed.

(** C23: a recorded spectrometer frame in one of the thirteen formats, found
    anywhere in a file, is returned with all its header fields and exactly its
    products; value [i] of product [b], tuning [t] is the recorded one divided by
    channels times fills; exactly the frame is consumed. *)
Lemma C23_drspec_decode_proof : forall before after r, drs_ok r -> In (q_format r) drs_formats ->
  (forall t b, t = 0 \/ t = 1 -> In b (products (q_format r)) -> q_nfreq r * fills_of r t b < 2 ^ 32) ->
  let data := before ++ drs_bytes r ++ after in
  exists s, read_drspec (mkFile data (zlen before)) = (mkFile data (zlen before + drs_len r), Got s) /\
    zlen (drs_bytes r) = drs_len r /\ shows_drs r s.
Proof.
  intros before after r W F N data. exists (mkSF (head_for r) (exposed (head_for r) (drs_words r))).
  split; [apply read_drspec_gen; auto|]. split; [apply drs_bytes_zlen; auto|apply shows_ok; auto].
Qed.
Lemma C23_drspec_decode_example_proof :
  let r := demo_drs 9 2 in
  drs_ok r /\ In (q_format r) drs_formats /\
  (forall t b, t = 0 \/ t = 1 -> In b (products (q_format r)) -> q_nfreq r * fills_of r t b < 2 ^ 32) /\
  drs_len r = 124 /\ products (q_format r) = [0; 3] /\
  spectrum r 0 3 1 = [CVal 2 2700; CVal 1002 2700; CVal 2002 2700].
Proof.
  cbv zeta. split; [apply demo_drs_ok; cbn; auto|]. split; [cbn; tauto|]. split.
  - intros t b Ht Hb. change (products (q_format (demo_drs 9 2))) with [0; 3] in Hb. destruct Ht as [-> | ->], Hb as [<-|[<-|[]]]; vm_compute; reflexivity.
  - vm_compute. auto.
Qed.

(** A file of recorded frames is returned frame by frame, then EOFError. *)
Lemma C23_drspec_stream_proof : forall before rs,
  Forall (fun r => drs_ok r /\
    (forall t b, t = 0 \/ t = 1 -> In b (products (q_format r)) -> q_nfreq r * fills_of r t b < 2 ^ 32) /\
    In (q_format r) drs_formats) rs ->
  let data := before ++ flat_map drs_bytes rs in
  exists l, drs_reads (1 + length rs) (mkFile data (zlen before)) = (mkFile data (zlen data), l, Some EOFError) /\
    Forall2 shows_drs rs l.
Proof. intros before rs H. apply drs_stream. exact H. Qed.
Lemma C23_drspec_stream_example_proof :
  Forall (fun r => drs_ok r /\
    (forall t b, t = 0 \/ t = 1 -> In b (products (q_format r)) -> q_nfreq r * fills_of r t b < 2 ^ 32) /\
    In (q_format r) drs_formats) [demo_drs 2 1; demo_drs 240 4].
Proof.
  repeat apply Forall_cons; try apply Forall_nil; (split; [apply demo_drs_ok; cbn; tauto|]); (split; [|cbn; tauto]).
  - intros t b Ht Hb. change (products (q_format (demo_drs 2 1))) with [1] in Hb. destruct Ht as [-> | ->], Hb as [<-|[]]; vm_compute; reflexivity.
  - intros t b Ht Hb. change (products (q_format (demo_drs 240 4))) with [4; 5; 6; 7] in Hb.
    destruct Ht as [-> | ->], Hb as [<-|[<-|[<-|[<-|[]]]]]; vm_compute; reflexivity.
Qed.

(** Any bytes: a frame of the announced size, EOFError at the end of the data,
    or SyncError without moving; never a change of the file. *)
Lemma C23_drspec_total_proof : forall f f' r, bytes_ok (f_data f) -> 0 <= f_pos f <= zlen (f_data f) ->
  read_drspec f = (f', r) ->
  f_data f' = f_data f /\
  match r with
  | Got s => f_pos f' = f_pos f + 76 + 8 * pol_count 8 (s_format (sf_head s)) * s_nfreq (sf_head s) /\ f_pos f' <= zlen (f_data f)
  | BadSync loc => f' = f /\ loc = f_pos f
  | AtEOF => f_pos f' = zlen (f_data f)
  end.
Proof. exact read_drspec_total. Qed.
Lemma C23_drspec_total_example_proof :
  read_drspec (mkFile (repeat 0 100) 5) = (mkFile (repeat 0 100) 5, BadSync 5) /\
  read_drspec (mkFile (repeat 0 100) 25) = (mkFile (repeat 0 100) 100, AtEOF).
Proof. vm_compute. auto. Qed.

(** ** Formats outside the thirteen *)
Lemma lane_wild : forall h data base stride off n, 1 <= s_nfreq h -> 0 <= base -> 0 <= off -> 0 < stride ->
  (Forall (fun c => c <> CWild) (lane h data base stride off n) <-> base + stride * (s_nfreq h - 1) + off < zlen data).
Proof.
  intros h data base stride off n HF HB HO HS. unfold lane. rewrite Forall_map, Forall_forall. split.
  - intro H. specialize (H (s_nfreq h - 1) ltac:(apply zseq_In; lia)). unfold peek in H.
    destruct ((0 <=? base + stride * (s_nfreq h - 1) + off) && (base + stride * (s_nfreq h - 1) + off <? zlen data))%bool eqn:E; [lia|congruence].
  - intros H i Hi. unfold peek. assert (B : 0 <= i <= s_nfreq h - 1).
    { clear - Hi HF. assert (forall m lo x, In x (zseq lo m) -> lo <= x < lo + Z.of_nat m).
      { induction m; intros lo x Hx; [destruct Hx|]. cbn [zseq In] in Hx. destruct Hx as [<-|Hx]; [lia|]. specialize (IHm _ _ Hx). lia. }
      specialize (H _ _ _ Hi). lia. }
    assert (stride * i <= stride * (s_nfreq h - 1)) by nia.
    destruct ((0 <=? base + stride * i + off) && (base + stride * i + off <? zlen data))%bool eqn:E; [congruence|nia].
Qed.
Lemma zeros_fine : forall h, Forall (fun c => c <> CWild) (zeros h).
Proof. intro h. unfold zeros. apply Forall_forall. intros x Hx. apply repeat_spec in Hx. congruence. Qed.

(** Exactly which formats keep the decoder inside the data it has read: the
    thirteen formats and those announcing four products or more.  (Every other format
    byte makes it read outside the buffer.) *)
Lemma C23_drspec_in_bounds_proof : forall h data, 0 <= s_format h < 256 -> 1 <= s_nfreq h ->
  zlen data = 2 * zlen (products (s_format h)) * s_nfreq h ->
  (Forall (Forall (fun c => c <> CWild)) (fst (drs_parse h data) ++ snd (drs_parse h data)) <->
   In (s_format h) drs_formats \/ 4 <= zlen (products (s_format h))).
Proof.
  intros h data HF HN HD.
  destruct (in_dec Z.eq_dec (s_format h) drs_formats) as [I|I].
  - split; [auto|intros _]. apply In_formats in I. pose proof (zeros_fine h) as ZF.
    unfold drs_parse, one_slot, two_slots, full, single, pair_lanes, slots.
    repeat (destruct I as [I|I]); rewrite I in *; 
      match type of HD with context [products ?k] => let v := eval vm_compute in (zlen (products k)) in change (zlen (products k)) with v in HD end;
      cbn - [lane Z.mul Z.add]; repeat apply Forall_cons; try apply Forall_nil; try exact ZF; apply lane_wild; lia.
  - assert (E : exists n0 n1 c0 c1 m0 m1, drs_parse h data = full h data n0 n1 c0 c1 m0 m1).
    { unfold drs_parse. 
      repeat match goal with |- context [s_format h =? ?k] => destruct (Z.eqb_spec (s_format h) k); [exfalso; apply I; unfold drs_formats; cbn [In]; lia|] end.
      destruct (negb _); repeat eexists. }
    destruct E as (n0 & n1 & c0 & c1 & m0 & m1 & ->). unfold full, slots. cbn [fst snd app].
    assert (P : 0 <= zlen (products (s_format h))) by apply zlen_nonneg.
    split.
    + intro H. right. do 7 (apply Forall_inv_tail in H). apply Forall_inv in H. apply lane_wild in H; nia.
    + intros [H|H]; [contradiction|]. assert (8 * s_nfreq h <= zlen data) by nia.
      repeat apply Forall_cons; try apply Forall_nil; apply lane_wild; lia.
Qed.
Lemma C23_drspec_in_bounds_example_proof :
  let h := drs_head (concat (drs_head_chunks (demo_drs 9 2))) in
  s_format h = 9 /\ s_nfreq h = 3 /\ zlen (drs_words (demo_drs 9 2)) = 2 * zlen (products 9) * 3 /\
  ~ In 3 drs_formats /\ zlen (products 3) = 2.
Proof. cbv zeta. repeat split; try (vm_compute; reflexivity). cbn. lia. Qed.

(** So a frame with two products other than XX/YY, re/im XY or I/V makes the
    decoder read outside the frame's data. *)
Lemma C23_drspec_overread_refuted_proof : exists r, drs_ok r /\
  match read_drspec (mkFile (drs_bytes r) 0) with
  | (_, Got s) => In CWild (flat_map (fun p => fst (snd p) ++ snd (snd p)) (sf_out s))
  | _ => False
  end.
Proof.
  exists (demo_drs 3 2). split; [apply demo_drs_ok; cbn; tauto|]. vm_compute. tauto.
Qed.

(** A frame with four products of both kinds (XX, XY and I) stays within its data
    but shows XX under the name I. *)
Lemma C23_drspec_mixed_refuted_proof : exists r s, drs_ok r /\
  read_drspec (mkFile (drs_bytes r) 0) = (mkFile (drs_bytes r) (drs_len r), Got s) /\
  products (q_format r) = [0; 1; 2; 4] /\
  znth (0, ([], [])) 3 (sf_out s) = (4, (spectrum r 0 0 0, spectrum r 1 0 0)) /\
  spectrum r 0 0 0 <> spectrum r 0 4 3.
Proof.
  exists (demo_drs 23 4), (mkSF (head_for (demo_drs 23 4)) (exposed (head_for (demo_drs 23 4)) (drs_words (demo_drs 23 4)))).
  split; [apply demo_drs_ok; cbn; tauto|]. split; [exact (read_drspec_gen [] [] (demo_drs 23 4) ltac:(apply demo_drs_ok; cbn; tauto))|].
  split; [vm_compute; reflexivity|]. split; [vm_compute; reflexivity|]. vm_compute. discriminate.
Qed.

(** The normalisation wraps at 2^32: with 4096 channels and 2^20 fills the
    spectrum is divided by zero. *)
Lemma C23_drspec_norm_refuted_proof : exists h, s_nfreq h = 4096 /\ s_fills h = [2 ^ 20; 2 ^ 20; 2 ^ 20; 2 ^ 20] /\ s_format h = 1 /\
  forall data, zlen data = 8192 ->
    znth CZero 0 (znth [] 0 (fst (drs_parse h data))) = CVal (znth 0 0 data) 0.
Proof.
  exists (mkSH 0 0 0 0 [] [2 ^ 20; 2 ^ 20; 2 ^ 20; 2 ^ 20] [] 0 1 0 0 4096 0 [] 0).
  do 3 (split; [reflexivity|]). intros data HD. unfold drs_parse. cbn [s_format].
  change (negb (Z.land 1 15 =? 0)) with true. change (1 =? 1) with true. cbv iota.
  unfold one_slot, single. cbn [fst zseq map Z.eqb]. change (znth [] 0 (?a :: _)) with a.
  unfold lane. cbn [s_nfreq]. change (Z.to_nat 4096) with (S (Z.to_nat 4095)). cbn [zseq map].
  match goal with |- znth CZero 0 (?a :: _) = _ => change (znth CZero 0 (a :: _)) with a end.
  unfold peek. rewrite HD. change ((0 <=? 0 * 4096 + 1 * 0 + 0) && (0 * 4096 + 1 * 0 + 0 <? 8192))%bool with true. cbv iota.
  f_equal.
Qed.

(** The description functions report the frame at the current position and
    leave the position unchanged: frame size, products, transform length, windows per
    integration, linear or Stokes. *)
Lemma C23_drspec_describe_proof : forall before after r, drs_ok r ->
  let f := mkFile (before ++ drs_bytes r ++ after) (zlen before) in
  drs_frame_size f = (f, Ok (zlen (drs_bytes r))) /\
  get_data_products f = (f, Ok (products (q_format r))) /\
  get_ffts_per_integration f = (f, Ok (q_nints r)) /\
  (In (q_format r) drs_formats -> get_transform_size f = (f, Ok (q_nfreq r)) /\
     exists b, get_is_linear f = (f, Ok b) /\ (b = true <-> Forall (fun p => p < 4) (products (q_format r)))).
Proof.
  intros before after r W f.
  assert (R := read_drspec_gen before after r W). cbv zeta in R. fold f in R.
  assert (HZ := drs_bytes_zlen r W). pose proof (zlen_nonneg before) as HP. pose proof (zlen_nonneg (drs_bytes r)) as HQ.
  assert (SK : fst (f_seek (f_tell f) 0 (mkFile (before ++ drs_bytes r ++ after) (zlen before + drs_len r))) = f).
  { unfold f_seek, f_tell, f. cbn [Z.eqb f_pos f_data]. destruct (zlen before <? 0) eqn:E; [lia|]. reflexivity. }
  assert (HF : 0 <= q_format r < 256) by apply W. destruct (products_ok _ HF) as [PE _].
  split; [|split; [|split; [|intro FM; split]]].
  - unfold drs_frame_size. rewrite R, SK. unfold f_tell at 1 2. cbn [f_pos].
    destruct (zlen before + drs_len r <? 0) eqn:E; [lia|]. do 2 f_equal. unfold f. cbn [f_tell f_pos]. rewrite HZ. unfold f_tell. cbn. lia.
  - unfold get_data_products, drs_peek. rewrite R, SK. cbn [sf_head head_for s_format]. rewrite PE. reflexivity.
  - unfold get_ffts_per_integration, drs_peek. rewrite R, SK. reflexivity.
  - unfold get_transform_size, drs_peek. rewrite R, SK. unfold transform_size. cbn [sf_head sf_out]. rewrite exposed_eq.
    cbn [head_for s_format]. rewrite PE. f_equal.
    assert (LL : forall k, 0 <= k < 4 -> zlen (znth [] k (fst (drs_parse (head_for r) (drs_words r)))) = q_nfreq r).
    { intros k Hk. assert (LN : forall b s o n, zlen (lane (head_for r) (drs_words r) b s o n) = q_nfreq r).
      { intros. unfold lane. rewrite zlen_map, zseq_zlen. cbn [head_for s_nfreq]. pose proof (zlen_nonneg (q_spec0 r)). unfold q_nfreq. lia. }
      assert (LZ : zlen (zeros (head_for r)) = q_nfreq r).
      { unfold zeros, zlen. rewrite repeat_length. cbn [head_for s_nfreq]. pose proof (zlen_nonneg (q_spec0 r)). unfold q_nfreq. lia. }
      unfold drs_parse, one_slot, two_slots, full, single, pair_lanes, slots. cbn [head_for s_format].
      assert (K : k = 0 \/ k = 1 \/ k = 2 \/ k = 3) by lia. apply In_formats in FM.
      repeat (destruct FM as [FM|FM]); rewrite FM; destruct K as [->|[->|[->| ->]]]; cbn - [lane Z.mul zeros zlen head_for]; first [apply LN|apply LZ]. }
    apply In_formats in FM.
    repeat (destruct FM as [FM|FM]); rewrite FM;
     match goal with |- context [products ?k] => let v := eval vm_compute in (products k) in change (products k) with v end;
     cbn [map find fst Z.eqb Pos.eqb]; rewrite LL by (vm_compute; split; congruence); reflexivity.
  - unfold get_is_linear, drs_peek. rewrite R, SK. cbn [sf_head head_for s_format]. exists (is_linear (q_format r)). split; [reflexivity|].
    apply In_formats in FM.
    repeat (destruct FM as [FM|FM]); rewrite FM;
     match goal with |- context [products ?k] => let v := eval vm_compute in (products k) in change (products k) with v end;
     unfold is_linear; cbn [Z.ltb Z.compare Pos.compare Pos.compare_cont];
     (split; [intro H; try discriminate H; repeat apply Forall_cons; try apply Forall_nil; lia
             |intro H; try reflexivity; inversion H; subst; lia]).
Qed.
Lemma C23_drspec_describe_example_proof : drs_ok (demo_drs 240 4) /\ In (q_format (demo_drs 240 4)) drs_formats.
Proof. split; [apply demo_drs_ok|]; cbn; tauto. Qed.
