(** Final forms of the COR and TBX properties (C18-C20, C46). *)
From Coq Require Import List ZArith Bool Lia.
From Verif Require Import M_Cor S_Drx S_Cor S_CorRun P_Drx P_Drx2 P_Cor P_Tbx P_CorDesc.
Import ListNotations.
Open Scope Z_scope.
Ltac Zify.zify_post_hook ::= Z.div_mod_to_equations.

Lemma file_eq : forall f g, f_data f = f_data g -> f_pos f = f_pos g -> f = g.
Proof. intros [d p] [d2 p2] H1 H2. cbn in *. congruence. Qed.

(** Concrete frames. *)
Definition demo_cor (n : nat) (chan s0 s1 : Z) : cor_rec :=
  mkCorRec 2 77 1000 chan 6 (2 ^ 58) 5 s0 s1
    (map (fun i => mkVis (i, 2 ^ 32 - 1 - i) (i + 7, 2 ^ 31 + i) (3, 4) (5, i)) (zseq 0 n)).
Lemma demo_cor_ok : forall n chan s0 s1, In (Z.of_nat n) cor_modes -> 0 <= chan < 65536 ->
  -32768 <= s0 < 32768 -> -32768 <= s1 < 32768 ->
  cor_ok (Z.of_nat n) (demo_cor n chan s0 s1) /\ unambiguous (demo_cor n chan s0 s1).
Proof.
  intros n chan s0 s1 Hm Hc H0 H1. apply mode_cases in Hm.
  assert (Hall : forall m, Forall (fun i => 0 <= i < 192) (zseq 0 m) -> Forall vis_ok (map (fun i => mkVis (i, 2 ^ 32 - 1 - i) (i + 7, 2 ^ 31 + i) (3, 4) (5, i)) (zseq 0 m))).
  { intros m HF. apply Forall_map. eapply Forall_impl; [|exact HF]. intros i Hi. cbv beta in Hi. unfold vis_ok, vis_words, word32.
    cbn [v_xx v_xy v_yx v_yy fst snd]. repeat (apply Forall_cons; [lia|]). apply Forall_nil. }
  assert (Hr : forall b, forallb (fun i => (0 <=? i) && (i <? 192)) (zseq 0 b) = true -> Forall (fun i => 0 <= i < 192) (zseq 0 b)).
  { intros b HF. apply Forall_forall. intros x Hx. rewrite forallb_forall in HF. specialize (HF x Hx). lia. }
  assert (Hlen : forall b lo, zlen (zseq lo b) = Z.of_nat b) by (induction b as [|b IH]; intro lo; [reflexivity|]; cbn [zseq]; rewrite zlen_cons, IH; lia).
  split.
  - unfold cor_ok, demo_cor. cbn [k_id k_count k_secs k_chan k_gain k_tag k_navg k_s0 k_s1 k_vis].
    do 9 (split; [lia|]). split; [rewrite zlen_map; apply Hlen|]. apply Hall, Hr.
    assert (E : n = 33%nat \/ n = 72%nat \/ n = 112%nat \/ n = 192%nat) by lia.
    destruct E as [-> |[-> |[-> | ->]]]; vm_compute; reflexivity.
  - intros k Hk Hlt. unfold demo_cor in *. cbn [k_vis] in *. rewrite zlen_map, Hlen in Hlt.
    rewrite (znth_map _ _ _ 0) by (rewrite Hlen; simpl in Hk; lia). cbn [v_xx fst].
    assert (E : n = 33%nat \/ n = 72%nat \/ n = 112%nat \/ n = 192%nat) by lia.
    simpl in Hk. destruct Hk as [<- |[<- |[<- |[]]]]; destruct E as [-> |[-> |[-> | ->]]]; vm_compute; congruence.
Qed.

(** C18: for every process history, a well-formed frame of n channels whose
    channel count is the one the reader currently assumes is returned with
    exactly its header, stands and visibilities (YX replaced by the conjugate of
    XY for an autocorrelation), consuming exactly the frame. *)
Lemma C18_cor_decode_proof : forall n st before after r, In n cor_modes -> cor_history st -> assumed_nchan st = n ->
  cor_ok n r -> unambiguous r ->
  let data := before ++ cor_bytes r ++ after in
  exists st' d, read_cor st (mkFile data (zlen before)) = (st', mkFile data (zlen before + (32 + 32 * n)), Got d) /\
    assumed_nchan st' = n /\
    c_id d = k_id r /\ c_count d = k_count r /\ c_secs d = k_secs r /\ c_chan d = k_chan r /\ c_gain d = k_gain r /\
    c_tag d = k_tag r /\ c_navg d = k_navg r /\ c_s0 d = k_s0 r /\ c_s1 d = k_s1 r /\
    c_nchan d = n /\ c_data d = flat_map vis_words (seen_vis r) /\
    (is_cor d = true <-> k_id r = 2 \/ k_id r = 6).
Proof.
  intros n st before after r Hm HH HA W U data. exists (mkCC n (Some (cor_size n))), (cframe_of n r).
  unfold data. rewrite (read_cor_ok n); auto; [|apply cor_history_coherent; auto].
  split; [do 3 f_equal; unfold cor_size; lia|].
  repeat (split; [reflexivity|]). unfold is_cor, cframe_of. cbn [c_id]. rewrite orb_true_iff, !Z.eqb_eq. tauto.
Qed.
Lemma C18_cor_decode_example_proof :
  cor_history cor_fresh /\ assumed_nchan cor_fresh = 192 /\ cor_ok 192 (demo_cor 192 500 3 3) /\ unambiguous (demo_cor 192 500 3 3) /\
  (exists st d, read_cor cor_fresh (mkFile (cor_bytes (demo_cor 192 500 3 3)) 0) = (st, mkFile (cor_bytes (demo_cor 192 500 3 3)) 6176, Got d) /\
    slice 8 8 (c_data d) = [1; 4294967294; 8; 2147483649; 8; 1; 5; 1] /\ c_tag d = 2 ^ 58 /\ c_s0 d = 3).
Proof.
  destruct (demo_cor_ok 192 500 3 3) as [W U]; [simpl; tauto|lia|lia|lia|].
  split; [constructor|]. split; [reflexivity|]. split; [exact W|]. split; [exact U|].
  exists (mkCC 192 (Some 6176)), (cframe_of 192 (demo_cor 192 500 3 3)).
  pose proof (read_cor_ok 192 cor_fresh [] [] (demo_cor 192 500 3 3) ltac:(simpl; tauto) (cor_history_coherent _ cor_start) W U ltac:(left; reflexivity)) as H.
  cbn [app] in H. rewrite app_nil_r in H. split; [exact H|]. split; [vm_compute; reflexivity|]. split; reflexivity.
Qed.

(** Words of a frame with n channels. *)
Lemma words_zlen : forall n l, length l = (4 * n)%nat -> zlen (words l) = Z.of_nat n.
Proof.
  induction n as [|n IH]; intros l H; [destruct l; [reflexivity|discriminate]|].
  destruct l as [|a [|b [|c [|d l]]]]; try (exfalso; simpl in H; lia).
  cbn [words]. rewrite zlen_cons, IH by (simpl in H; lia). lia.
Qed.
Lemma fix_yx_spec : forall n l, length l = (8 * n)%nat ->
  zlen (fix_yx l) = zlen l /\
  forall ch, 0 <= ch < Z.of_nat n ->
    znth 0 (8 * ch + 4) (fix_yx l) = znth 0 (8 * ch + 2) (fix_yx l) /\
    znth 0 (8 * ch + 5) (fix_yx l) = Z.lxor (znth 0 (8 * ch + 3) (fix_yx l)) (2 ^ 31).
Proof.
  induction n as [|n IH]; intros l H.
  - destruct l; [|discriminate]. split; [reflexivity|lia].
  - destruct l as [|a [|b [|c [|d [|e [|f [|g [|h l]]]]]]]]; try (exfalso; simpl in H; lia).
    destruct (IH l ltac:(simpl in H; lia)) as [I1 I2]. cbn [fix_yx]. split; [rewrite !zlen_cons; lia|].
    intros ch Hch. destruct (Z.eq_dec ch 0) as [->|]; [split; reflexivity|].
    specialize (I2 (ch - 1) ltac:(lia)).
    assert (HN : forall i, 8 <= i -> forall x0 x1 x2 x3 x4 x5 x6 x7 r, znth 0 i (x0 :: x1 :: x2 :: x3 :: x4 :: x5 :: x6 :: x7 :: r) = znth 0 (i - 8) r).
    { intros i Hi x0 x1 x2 x3 x4 x5 x6 x7 r.
      change (x0 :: x1 :: x2 :: x3 :: x4 :: x5 :: x6 :: x7 :: r) with ([x0; x1; x2; x3; x4; x5; x6; x7] ++ r).
      rewrite znth_app_r by (cbn; lia). reflexivity. }
    rewrite !HN by lia.
    replace (8 * ch + 4 - 8) with (8 * (ch - 1) + 4) by lia. replace (8 * ch + 2 - 8) with (8 * (ch - 1) + 2) by lia.
    replace (8 * ch + 5 - 8) with (8 * (ch - 1) + 5) by lia. replace (8 * ch + 3 - 8) with (8 * (ch - 1) + 3) by lia. auto.
Qed.

(** C18: whatever bytes a frame was read from, its data array has 4 complex
    values per channel, and whenever the two stands are equal the YX product of
    every channel is the conjugate of XY. *)
Lemma C18_cor_hermitian_proof : forall st f st' f' d, cor_history st -> 0 <= f_pos f -> bytes_ok (f_data f) ->
  read_cor st f = (st', f', Got d) ->
  zlen (c_data d) = 8 * c_nchan d /\
  (c_s0 d = c_s1 d -> forall ch, 0 <= ch < c_nchan d ->
    znth 0 (8 * ch + 4) (c_data d) = znth 0 (8 * ch + 2) (c_data d) /\
    znth 0 (8 * ch + 5) (c_data d) = Z.lxor (znth 0 (8 * ch + 3) (c_data d)) (2 ^ 31)).
Proof.
  intros st f st' f' d HH Hp HB HR.
  assert (HX : exists N raw, In N cor_modes /\ d = cor_parse N raw /\ zlen raw = cor_size N).
  { pose proof (cor_history_coherent st HH) as HC. unfold read_cor in HR. rewrite dispatch_mode in HR by apply HC.
    assert (HI : forall N st f st1 f1 d, In N cor_modes -> cor_impl N st f = (st1, f1, inr (Got d)) ->
              exists raw, d = cor_parse N raw /\ zlen raw = cor_size N).
    { clear. intros N st f st1 f1 d HN H. unfold cor_impl in H.
      destruct (f_read _ f) as [g raw]. destruct (Z.eqb_spec (zlen raw) (cor_size N)); cbn [negb] in H; [|inversion H].
      destruct (cor_detect N raw =? N); cbn [negb] in H; [|inversion H].
      destruct (valid_sync raw); cbn [negb] in H; [|inversion H]. exists raw. inversion H; auto. }
    cbn [cor_loop] in HR. destruct (cor_impl (cc_nchan st) st f) as [[st1 f1] [n|r]] eqn:E1.
    - destruct (cor_no_second_retry _ _ _ _ _ _ (proj1 HC) HC eq_refl Hp E1) as (-> & Hn & _ & -> & HX).
      destruct (cor_impl n (mkCC n None) f) as [[st2 f2] [m|r2]] eqn:E2; [exfalso; eapply HX; eauto|].
      inversion HR; subst st2 f2 r2. destruct (HI n _ _ _ _ _ Hn E2) as (raw & H1 & H2). exists n, raw. auto.
    - inversion HR; subst st1 f1 r. destruct (HI _ _ _ _ _ _ (proj1 HC) E1) as (raw & H1 & H2). exists (cc_nchan st), raw. split; [apply HC|auto]. }
  destruct HX as (N & raw & Hm & -> & HZ). unfold cor_parse. cbn [c_data c_nchan c_s0 c_s1].
  assert (HL : length (slice 32 (N * 8 * 4) raw) = (4 * Z.to_nat (8 * N))%nat).
  { assert (X : zlen (slice 32 (N * 8 * 4) raw) = N * 8 * 4) by (apply slice_zlen; unfold cor_size in HZ; apply mode_cases in Hm; lia).
    unfold zlen in X. apply mode_cases in Hm. lia. }
  pose proof (words_zlen _ _ HL) as HW.
  assert (HL8 : length (words (slice 32 (N * 8 * 4) raw)) = (8 * Z.to_nat N)%nat) by (unfold zlen in HW; apply mode_cases in Hm; lia).
  destruct (fix_yx_spec _ _ HL8) as [F1 F2]. rewrite HW in F1.
  destruct (Z.eqb_spec (signed 16 (bswap 2 (le_val (slice 28 2 raw)))) (signed 16 (bswap 2 (le_val (slice 30 2 raw))))) as [E|E].
  - rewrite F1. split; [apply mode_cases in Hm; lia|]. intros _ ch Hch. apply F2. lia.
  - rewrite HW. split; [apply mode_cases in Hm; lia|]. intros X. congruence.
Qed.
Lemma C18_cor_hermitian_example_proof : exists st f d, 
  read_cor cor_fresh (mkFile (cor_bytes (demo_cor 192 500 3 3)) 0) = (st, f, Got d) /\ c_s0 d = c_s1 d /\ c_nchan d = 192 /\
  znth 0 (8 * 100 + 3) (c_data d) = 2147483748 /\ znth 0 (8 * 100 + 5) (c_data d) = 100.
Proof.
  destruct C18_cor_decode_example_proof as (_ & _ & W & U & st & d & H & _).
  eexists. eexists. exists (cframe_of 192 (demo_cor 192 500 3 3)).
  split; [|vm_compute; auto].
  pose proof (read_cor_ok 192 cor_fresh [] [] (demo_cor 192 500 3 3) ltac:(simpl; tauto) (cor_history_coherent _ cor_start) W U ltac:(left; reflexivity)) as HR.
  cbn [app] in HR. rewrite app_nil_r in HR. exact HR.
Qed.

(** C19 (partial): for every process history and a file of at least one frame, all of n
    channels, none of them imitating a frame boundary: if the reader currently
    assumes n channels, or more and the frames fill at least one frame of the
    assumed size, then reading returns all frames in order, each with n channels,
    and then reports end of file.  [t] is an incomplete frame at the end.
    Missing: caches that assume fewer channels, short files, imitated
    boundaries - all three refuted below. *)
Lemma C19_cor_stream_partial_proof : forall n st rs before t extra, In n cor_modes -> cor_history st ->
  Forall (fun r => cor_ok n r /\ unambiguous r) rs -> rs <> [] -> zlen t < 32 + 32 * n ->
  (assumed_nchan st = n \/
   (n < assumed_nchan st /\ 32 + 32 * assumed_nchan st <= zlen rs * (32 + 32 * n))) ->
  let data := before ++ flat_map cor_bytes rs ++ t in
  exists st' ds, reads read_cor (length rs + S extra) st (mkFile data (zlen before)) = (st', mkFile data (zlen data), ds, Some EOFError) /\
    map c_nchan ds = map (fun _ => n) rs /\ map c_chan ds = map k_chan rs /\ map c_tag ds = map k_tag rs /\
    map (fun d => (c_s0 d, c_s1 d)) ds = map (fun r => (k_s0 r, k_s1 r)) rs /\
    map c_data ds = map (fun r => flat_map vis_words (seen_vis r)) rs.
Proof.
  intros n st rs before t extra Hm HH HF Hne Ht HN data.
  exists (mkCC n (Some (cor_size n))), (map (cframe_of n) rs). unfold data.
  rewrite (cor_stream n st rs before t extra); auto.
  - rewrite !map_map. rewrite (zlen_app before). repeat (split; [reflexivity|]). reflexivity.
  - apply cor_history_coherent; auto.
  - unfold cor_size. lia.
  - destruct HN as [HN|[H1 H2]]; [left; auto|right; split; [auto|]]. unfold cor_size, assumed_nchan in *. lia.
Qed.

Lemma stale_history : cor_history (mkCC 33 (Some 1088)).
Proof.
  destruct (demo_cor_ok 33 500 1 2) as [W U]; [simpl; tauto|lia|lia|lia|]. change (Z.of_nat 33) with 33 in W.
  set (r := demo_cor 33 500 1 2) in *.
  pose proof (cor_first_read 33 cor_fresh r [r; r; r; r; r] [] [] ltac:(simpl; tauto) (cor_history_coherent _ cor_start)
    ltac:(repeat (apply Forall_cons; [split; assumption|]); apply Forall_nil) ltac:(right; split; [reflexivity|vm_compute; congruence])) as H.
  eapply cor_next; [apply cor_start| | |exact H]; cbn [f_pos f_data].
  - vm_compute. congruence.
  - cbn [app]. rewrite app_nil_r. unfold r. apply Forall_forall. intros x Hx.
    assert (HX : forallb (fun b => (0 <=? b) && (b <? 256)) (flat_map cor_bytes (repeat (demo_cor 33 500 1 2) 6)) = true) by (vm_compute; reflexivity).
    rewrite forallb_forall in HX. specialize (HX x Hx). unfold is_byte. lia.
Qed.

Lemma C19_cor_stream_example_proof : exists st rs, cor_history st /\ length rs = 6%nat /\ rs <> [] /\
  Forall (fun r => cor_ok 33 r /\ unambiguous r) rs /\
  33 < assumed_nchan st /\ 32 + 32 * assumed_nchan st <= zlen rs * (32 + 32 * 33).
Proof.
  destruct (demo_cor_ok 33 500 1 2) as [W U]; [simpl; tauto|lia|lia|lia|]. change (Z.of_nat 33) with 33 in W.
  set (r := demo_cor 33 500 1 2) in *. exists cor_fresh, [r; r; r; r; r; r].
  split; [constructor|]. split; [reflexivity|]. split; [discriminate|].
  split; [repeat (apply Forall_cons; [split; assumption|]); apply Forall_nil|]. split; vm_compute; congruence.
Qed.

(** C19 refuted, stale cache: after a 33-channel file has been read in the same
    process, the first frame of a 72-channel file comes back with 33 channels,
    and the next read fails with a sync error in the middle of that frame. *)
Lemma C19_stale_cache_refuted_proof : exists st r, cor_history st /\ cor_ok 72 r /\ unambiguous r /\
  let data := flat_map cor_bytes [r; r; r] in
  exists st1 f1 d, read_cor st (mkFile data 0) = (st1, f1, Got d) /\ c_nchan d = 33 /\ f_pos f1 = 1088 /\
  exists st2 f2, read_cor st1 f1 = (st2, f2, BadSync 1088).
Proof.
  destruct (demo_cor_ok 72 500 1 2) as [W U]; [simpl; tauto|lia|lia|lia|].
  exists (mkCC 33 (Some 1088)), (demo_cor 72 500 1 2). split; [apply stale_history|]. split; [exact W|]. split; [exact U|].
  cbv zeta. eexists. eexists. eexists. split; [vm_compute; reflexivity|]. split; [vm_compute; reflexivity|].
  split; [vm_compute; reflexivity|]. eexists. eexists. vm_compute. reflexivity.
Qed.
(** C19 refuted, short file: in a fresh process a file of five complete
    33-channel frames reports end of file at the first read and consumes everything. *)
Lemma C19_short_file_refuted_proof : exists r, cor_ok 33 r /\ unambiguous r /\
  let data := flat_map cor_bytes [r; r; r; r; r] in
  exists st, read_cor cor_fresh (mkFile data 0) = (st, mkFile data (zlen data), AtEOF).
Proof.
  destruct (demo_cor_ok 33 500 1 2) as [W U]; [simpl; tauto|lia|lia|lia|].
  exists (demo_cor 33 500 1 2). split; [exact W|]. split; [exact U|]. cbv zeta. eexists. vm_compute. reflexivity.
Qed.
(** C19 refuted, imitated boundary: a 192-channel frame whose XX real part in
    channel 33 has the bit pattern of the sync word is returned with 33 channels. *)
Lemma C19_imitated_boundary_refuted_proof : exists r, cor_ok 192 r /\
  exists st f d, read_cor cor_fresh (mkFile (cor_bytes r) 0) = (st, f, Got d) /\ c_nchan d = 33.
Proof.
  set (vs := map (fun i => mkVis (if i =? 33 then 1558102238 else i, 0) (0, 0) (0, 0) (0, 0)) (zseq 0 192)).
  exists (mkCorRec 2 0 0 0 0 0 0 0 1 vs). split.
  - unfold cor_ok. cbn [k_id k_count k_secs k_chan k_gain k_tag k_navg k_s0 k_s1 k_vis].
    do 9 (split; [lia|]). split; [reflexivity|].
    apply Forall_forall. intros v Hv. unfold vis_ok. apply Forall_forall. intros w Hw.
    assert (HX : forallb (fun v => forallb (fun w => (0 <=? w) && (w <? 2 ^ 32)) (vis_words v)) vs = true) by (vm_compute; reflexivity).
    rewrite forallb_forall in HX. specialize (HX v Hv). rewrite forallb_forall in HX. specialize (HX w Hw). unfold word32. lia.
  - eexists. eexists. eexists. split; vm_compute; reflexivity.
Qed.

(** C19: on any bytes and after any history one read either returns a frame
    whose sync word is present, consuming exactly its size; or raises a sync
    error with the position unchanged, the error's location there and the
    reader's assumption back at its initial value; or reports end of file because
    less than a frame of the assumed size is left. *)
Lemma C19_cor_read_total_proof : forall st f st' f' r, cor_history st -> 0 <= f_pos f -> bytes_ok (f_data f) ->
  read_cor st f = (st', f', r) ->
  let left := zlen (f_data f) - f_pos f in
  let synced := ztake 4 (zdrop (f_pos f) (f_data f)) = sync_bytes in
  f_data f' = f_data f /\
  match r with
  | Got d => synced /\ In (c_nchan d) cor_modes /\ 32 + 32 * c_nchan d <= left /\ f_pos f' = f_pos f + (32 + 32 * c_nchan d) /\
             assumed_nchan st' = c_nchan d /\ c_nchan d <= assumed_nchan st
  | BadSync loc => ~ synced /\ loc = f_pos f /\ f' = f /\ st' = cor_fresh
  | AtEOF => left < 32 + 32 * assumed_nchan st /\ f_pos f' = Z.max (f_pos f) (zlen (f_data f)) /\ assumed_nchan st' = assumed_nchan st
  end.
Proof.
  intros st f st' f' r HH Hp HB HR left synced.
  destruct (read_cor_total _ _ _ _ _ (cor_history_coherent _ HH) Hp HB HR) as (H1 & H2 & H3). split; [auto|].
  unfold left, assumed_nchan in *. destruct r as [d| |loc].
  - destruct H3 as (A1 & A2 & A3 & A4 & A5). unfold cor_size in *. split; [auto|]. split; [rewrite A2; apply H2|].
    split; [lia|]. split; [lia|]. split; [auto|lia].
  - destruct H3 as (A1 & A2 & A3). unfold cor_size in *. split; [lia|]. split; [lia|auto].
  - destruct H3 as (A1 & A2 & A3 & A4). split; [auto|]. split; [auto|]. split; [|auto]. apply file_eq; auto.
Qed.
Lemma C19_cor_read_total_example_proof :
  (exists st f, read_cor cor_fresh (mkFile (repeat 0 (Z.to_nat 6200)) 7) = (st, f, BadSync 7) /\ f_pos f = 7) /\
  (exists st f, read_cor cor_fresh (mkFile (repeat 0 100) 7) = (st, f, AtEOF) /\ f_pos f = 100).
Proof. split; eexists; eexists; (split; vm_compute; reflexivity). Qed.

(** ** TBX *)
Definition demo_tbx (ns nc : nat) (chan : Z) : tbx_rec :=
  mkTbxRec 8 33 1000 chan (Z.of_nat ns) (Z.of_nat nc) (2 ^ 50)
    (map (fun i => (i mod 16 - 8, (i / 16) mod 16 - 8)) (zseq 0 (ns * nc * 2))).
Lemma zseq_zlen : forall b lo, zlen (zseq lo b) = Z.of_nat b.
Proof. induction b as [|b IH]; intro lo; [reflexivity|]; cbn [zseq]; rewrite zlen_cons, IH; lia. Qed.
Lemma demo_tbx_ok : forall ns nc chan, 0 <= chan < 2 ^ 32 -> tbx_ok (Z.of_nat ns) (Z.of_nat nc) (demo_tbx ns nc chan).
Proof.
  intros ns nc chan H. unfold tbx_ok, demo_tbx. cbn [x_id x_count x_secs x_chan x_nstand x_nchan x_tag x_samples].
  do 4 (split; [lia|]). split; [auto|]. split; [auto|]. split; [lia|].
  split; [rewrite zlen_map, zseq_zlen; nia|]. apply Forall_map. apply Forall_forall. intros i _. cbn [fst snd]. lia.
Qed.

(** C20 (partial): after any history, a file of at least one frame of one supported mode
    returns all frames in order with their fields and samples and then end of
    file, provided a frame of the size the reader currently assumes would fit
    into the file.  The first channel is right when it is below 32768.
    Missing: shorter files and larger first channels, refuted below. *)
Lemma C20_tbx_stream_partial_proof : forall ns nc st rs before t extra, tbx_mode ns nc -> tbx_history st ->
  Forall (tbx_ok ns nc) rs -> rs <> [] -> zlen t < 28 + 2 * ns * nc ->
  assumed_bytes st <= zlen rs * (28 + 2 * ns * nc) + zlen t ->
  let data := before ++ flat_map tbx_bytes rs ++ t in
  exists st' ts, reads read_tbx (length rs + S extra) st (mkFile data (zlen before)) = (st', mkFile data (zlen data), ts, Some EOFError) /\
    map t_id ts = map x_id rs /\ map t_count ts = map x_count rs /\ map t_secs ts = map x_secs rs /\
    map t_tag ts = map x_tag rs /\ map (fun t => (t_nstand t, t_nchan t)) ts = map (fun _ => (ns, nc)) rs /\
    map t_data ts = map (fun r => interleave (x_samples r)) rs /\
    (Forall (fun r => x_chan r < 32768) rs -> map t_chan ts = map x_chan rs).
Proof.
  intros ns nc st rs before t extra HM HH HF Hne Ht HB data.
  destruct (tbx_stream ns nc rs st before t extra HM (tbx_history_coherent _ HH) HF) as (st' & H); auto.
  - unfold tbx_size. lia.
  - rewrite <- assumed_bytes_eq. unfold tbx_size. lia.
  - exists st', (map tframe_of rs). unfold data. rewrite H. rewrite (zlen_app before). split; [reflexivity|].
    rewrite !map_map. do 4 (split; [reflexivity|]). split; [|split; [reflexivity|]].
    + apply map_ext_in. intros r Hr. rewrite Forall_forall in HF. destruct (HF r Hr) as (_ & _ & _ & _ & E1 & E2 & _).
      unfold tframe_of. cbn [t_nstand t_nchan]. congruence.
    + intro HC. apply map_ext_in. intros r Hr. rewrite Forall_forall in HC, HF. specialize (HC r Hr).
      destruct (HF r Hr) as (_ & _ & _ & E & _). unfold tframe_of. cbn [t_chan].
      rewrite <- (Z.mod_small (x_chan r) (2 ^ 16)) at 1 by lia. apply signed_mod; [lia|]. change (2 ^ (16 - 1)) with 32768. lia.
Qed.
Lemma C20_tbx_stream_example_proof : exists rs, tbx_mode 64 4 /\ tbx_history tbx_fresh /\ Forall (tbx_ok 64 4) rs /\
  rs <> [] /\ assumed_bytes tbx_fresh <= zlen rs * (28 + 2 * 64 * 4) + 0 /\ Forall (fun r => x_chan r < 32768) rs.
Proof.
  exists (repeat (demo_tbx 64 4 1200) 16). split; [split; simpl; tauto|]. split; [constructor|].
  split; [apply Forall_forall; intros x Hx; apply repeat_spec in Hx; rewrite Hx; apply (demo_tbx_ok 64 4 1200); lia|].
  split; [discriminate|]. split; [vm_compute; congruence|].
  apply Forall_forall; intros x Hx; apply repeat_spec in Hx; rewrite Hx; reflexivity.
Qed.

(** C20 refuted, short file: in a fresh process a file of one complete 64-stand,
    4-channel frame reports end of file and consumes it. *)
Lemma C20_short_file_refuted_proof : exists r, tbx_ok 64 4 r /\
  exists st, read_tbx tbx_fresh (mkFile (tbx_bytes r) 0) = (st, mkFile (tbx_bytes r) 540, AtEOF).
Proof.
  exists (demo_tbx 64 4 1200). split; [apply (demo_tbx_ok 64 4 1200); lia|]. eexists. vm_compute. reflexivity.
Qed.
(** C20 refuted, first channel: a frame whose first channel is 40000 is
    returned with first channel -25536. *)
Lemma C20_first_channel_refuted_proof : exists r, tbx_ok 256 16 r /\ x_chan r = 40000 /\
  exists st f d, read_tbx tbx_fresh (mkFile (tbx_bytes r) 0) = (st, f, Got d) /\ t_chan d = -25536.
Proof.
  exists (demo_tbx 256 16 40000). pose proof (demo_tbx_ok 256 16 40000 ltac:(lia)) as W. split; [exact W|]. split; [reflexivity|].
  destruct (read_tbx_ok 256 16 tbx_fresh [] [] (demo_tbx 256 16 40000) ltac:(split; simpl; tauto) (tbx_history_coherent _ tbx_start) W ltac:(vm_compute; congruence)) as (st & _ & _ & H).
  cbn [app] in H. rewrite app_nil_r in H. exists st. eexists. eexists. split; [exact H|]. reflexivity.
Qed.
(** C20 refuted for the integer variant: where read_frame raises a sync error,
    read_frame_ci8 raises NameError. *)
Lemma C20_ci8_sync_refuted_proof : exists data st f, read_tbx tbx_fresh (mkFile data 0) = (st, f, BadSync 0) /\
  read_tbx_ci8 tbx_fresh (mkFile data 0) = (st, f, Raise NameError).
Proof.
  exists (repeat 0 (Z.to_nat 8220)). eexists. eexists. split; vm_compute; reflexivity.
Qed.

(** C20: on any bytes and after any history one read of TBX either returns a
    frame of the supported mode its header states, whose sync word is present,
    consuming exactly its size; or raises a sync error at an unchanged position
    because the mode is not supported or the sync word is absent; or
    reports end of file. *)
Lemma C20_tbx_read_total_proof : forall st f st' f' r, tbx_history st -> 0 <= f_pos f -> bytes_ok (f_data f) ->
  read_tbx st f = (st', f', r) ->
  let h := zdrop (f_pos f) (f_data f) in
  let ns := be_val (slice 16 2 h) in
  let nc := be_val (slice 18 2 h) in
  let left := zlen (f_data f) - f_pos f in
  f_data f' = f_data f /\
  match r with
  | Got d => ztake 4 h = sync_bytes /\ tbx_mode ns nc /\ t_nstand d = ns /\ t_nchan d = nc /\
             28 + 2 * ns * nc <= left /\ f_pos f' = f_pos f + (28 + 2 * ns * nc)
  | BadSync loc => (ztake 4 h <> sync_bytes \/ ~ tbx_mode ns nc) /\ loc = f_pos f /\ f' = f
  | AtEOF => f_pos f' = Z.max (f_pos f) (zlen (f_data f)) /\
             (left < assumed_bytes st \/ tbx_mode ns nc /\ left < 28 + 2 * ns * nc)
  end.
Proof.
  intros st f st' f' r HH Hp HB HR h ns nc left.
  destruct (read_tbx_total _ _ _ _ _ (tbx_history_coherent _ HH) Hp HB HR) as (H1 & H2 & H3). split; [auto|].
  unfold tbx_header_mode in H3. fold h in H3. cbv zeta in H3. fold ns nc in H3. rewrite assumed_bytes_eq.
  destruct r as [d| |loc].
  - destruct H3 as (A1 & A2 & A3 & A4 & A5 & A6 & A7). unfold tbx_size in *. split; [auto|]. split; [auto|]. split; [auto|]. split; [auto|]. unfold left. split; lia.
  - destruct H3 as (A1 & A2). unfold tbx_size in *. split; [auto|]. unfold left. destruct A2 as [A2|[A2 A3]]; [left; lia|right; split; [auto|lia]].
  - destruct H3 as (A1 & A2 & A3). split; [destruct A3; auto|]. split; [auto|]. apply file_eq; auto.
Qed.
Lemma C20_tbx_read_total_example_proof :
  (exists st f, read_tbx tbx_fresh (mkFile (repeat 1 (Z.to_nat 8220)) 0) = (st, f, BadSync 0) /\ f_pos f = 0) /\
  (exists st f, read_tbx tbx_fresh (mkFile (repeat 1 100) 3) = (st, f, AtEOF) /\ f_pos f = 100).
Proof. split; eexists; eexists; (split; vm_compute; reflexivity). Qed.

(** ** Stream descriptions (C46) *)
Lemma last_const : forall A (n : Z) (l : list A) d, l <> [] -> last (map (fun _ => n) l) d = n.
Proof.
  intros A n l d H. destruct l as [|x l]; [congruence|]. clear H. induction l as [|y l IH]; [reflexivity|]. exact IH.
Qed.
Lemma restore_same : forall f f1, 0 <= f_pos f -> f_data f1 = f_data f -> restore f f1 = f.
Proof. intros f f1 Hp HD. rewrite restore_eq by auto. rewrite HD. destruct f; reflexivity. Qed.
Section Keep.
Context {St A : Type} (reader : St -> file -> St * file * rd A) (Inv : St -> Prop).
Context (is_kind : A -> bool) (chan nchan : A -> Z).
Context (Hstep : forall st f st' f' r, Inv st -> 0 <= f_pos f -> bytes_ok (f_data f) -> reader st f = (st', f', r) ->
   Inv st' /\ f_data f' = f_data f /\ 0 <= f_pos f').
Lemma keep_find : forall (B : Type) (g : option (Z * Z * A) -> B) N st f, Inv st -> 0 <= f_pos f -> bytes_ok (f_data f) ->
  forall st' f' r, (let '(st1, f1, r) := find_frame reader is_kind N st f in (st1, restore f f1, g r)) = (st', f', r) -> f' = f.
Proof.
  intros B g N st f HC Hp HB st' f' r H. destruct (find_frame reader is_kind N st f) as [[st1 f1] q] eqn:E.
  destruct (find_frame_keeps reader Inv is_kind Hstep _ _ _ _ _ _ HC Hp HB E) as [_ HD].
  inversion H. apply restore_same; auto.
Qed.
Lemma keep_chan : forall N st f, Inv st -> 0 <= f_pos f -> bytes_ok (f_data f) ->
  forall st' f' r, (let '(st1, f1, seen, per) := chan_loop reader chan nchan N st f [] 0 in (st1, restore f f1, zlen seen * per)) = (st', f', r) ->
  f' = f /\ Inv st'.
Proof.
  intros N st f HC Hp HB st' f' r H. destruct (chan_loop reader chan nchan N st f [] 0) as [[[st1 f1] s] p] eqn:E.
  destruct (chan_loop_keeps reader Inv chan nchan Hstep _ _ _ _ _ _ _ _ _ HC Hp HB E) as [HI HD].
  inversion H; subst. split; [apply restore_same; auto|auto].
Qed.
Lemma keep_obs : forall N st f, Inv st -> 0 <= f_pos f -> bytes_ok (f_data f) ->
  forall st' f' r, (let '(st1, f1, seen) := obs_loop_tbx reader is_kind chan N st f [] in (st1, restore f f1, zlen seen)) = (st', f', r) -> f' = f.
Proof.
  intros N st f HC Hp HB st' f' r H. destruct (obs_loop_tbx reader is_kind chan N st f []) as [[st1 f1] s] eqn:E.
  destruct (obs_loop_keeps reader Inv is_kind chan Hstep _ _ _ _ _ _ _ HC Hp HB E) as [_ HD].
  inversion H. apply restore_same; auto.
Qed.
End Keep.

(** C46: all description functions leave the file position where it was, on
    any content and after any history. *)
Lemma C46_position_kept_proof :
  (forall st f, cor_history st -> 0 <= f_pos f -> bytes_ok (f_data f) ->
    (forall st' f' r, frame_size read_cor is_cor st f = (st', f', r) -> f' = f) /\
    (forall st' f' r, cor_channel_count read_cor c_chan c_nchan st f = (st', f', r) -> f' = f) /\
    (forall st' f' r, cor_frames_per_obs read_cor is_cor c_chan c_nchan st f = (st', f', r) -> f' = f)) /\
  (forall st f, tbx_history st -> 0 <= f_pos f -> bytes_ok (f_data f) ->
    (forall st' f' r, frame_size read_tbx is_tbx st f = (st', f', r) -> f' = f) /\
    (forall st' f' r, tbx_frames_per_obs read_tbx is_tbx t_chan st f = (st', f', r) -> f' = f)).
Proof.
  split; intros st f HH Hp HB.
  - pose proof (cor_history_coherent _ HH) as HC.
    pose proof (keep_chan read_cor cc_coherent c_chan c_nchan cor_step_keeps 64 st f HC Hp HB) as HK.
    fold (cor_channel_count read_cor c_chan c_nchan st f) in HK.
    split; [unfold frame_size; apply (keep_find read_cor cc_coherent is_cor cor_step_keeps); auto|]. split.
    + intros st' f' r H. apply (HK st' f' r H).
    + intros st' f' r H. unfold cor_frames_per_obs in H.
      destruct (cor_channel_count read_cor c_chan c_nchan st f) as [[st1 f1] tot].
      destruct (HK st1 f1 tot eq_refl) as [-> HC1].
      revert st' f' r H.
      apply (keep_find read_cor cc_coherent is_cor cor_step_keeps _
        (fun r => if match r with Some (_, _, a) => c_nchan a | None => 0 end =? 0 then Raise ZeroDivisionError
                  else Ok (tot / match r with Some (_, _, a) => c_nchan a | None => 0 end * (256 * (256 + 1) / 2)))); auto.
  - pose proof (tbx_history_coherent _ HH) as HC. split.
    + unfold frame_size. apply (keep_find read_tbx tc_coherent is_tbx tbx_step_keeps); auto.
    + unfold tbx_frames_per_obs. apply (keep_obs read_tbx tc_coherent is_tbx t_chan tbx_step_keeps); auto.
Qed.

(** C46 (partial): for a stream as in C19 whose frames are marked as COR, the
    frame size, the number of channels (over the first 64 frames) and the number of frames per
    observation (32896 baselines) are right; d lists the distinct first
    channels.  Missing: the cases C19 is refuted for. *)
Lemma C46_cor_description_partial_proof : forall n st rs before t d, In n cor_modes -> cor_history st ->
  Forall (fun r => cor_ok n r /\ unambiguous r) rs -> rs <> [] -> zlen t < 32 + 32 * n ->
  Forall (fun r => k_id r = 2 \/ k_id r = 6) rs ->
  (assumed_nchan st = n \/
   (n < assumed_nchan st /\ 32 + 32 * assumed_nchan st <= zlen rs * (32 + 32 * n))) ->
  NoDup d -> (forall c, In c d <-> In c (map k_chan (firstn 64 rs))) ->
  let f := mkFile (before ++ flat_map cor_bytes rs ++ t) (zlen before) in
  snd (frame_size read_cor is_cor st f) = Ok (32 + 32 * n) /\
  snd (cor_channel_count read_cor c_chan c_nchan st f) = zlen d * n /\
  snd (cor_frames_per_obs read_cor is_cor c_chan c_nchan st f) = Ok (zlen d * 32896).
Proof.
  intros n st rs before t d Hm HH HF Hne Ht HID HN Hd Hdi f.
  pose proof (cor_history_coherent _ HH) as HC. destruct rs as [|r rs]; [congruence|]. clear Hne.
  assert (HN' : cc_nchan st = n \/ (n < cc_nchan st /\ cor_size (cc_nchan st) <= zlen (r :: rs) * cor_size n)).
  { unfold cor_size, assumed_nchan in *. destruct HN as [HN|[H1 H2]]; [left; auto|right; split; [auto|lia]]. }
  assert (HK : is_cor (cframe_of n r) = true).
  { unfold is_cor, cframe_of. cbn [c_id]. inversion HID as [|? ? [E|E] ?]; subst; rewrite E; reflexivity. }
  assert (Htt : zlen t < cor_size n) by (unfold cor_size; lia).
  pose proof (cor_first_read n st r rs before t Hm HC HF HN') as H1.
  split; [|].
  { unfold frame_size. change 2500%nat with (S 2499). unfold f. rewrite (find_frame_first _ _ _ _ _ _ _ _ H1 HK).
    cbn [snd f_pos]. f_equal. unfold cor_size. lia. }
  assert (HCC : cor_channel_count read_cor c_chan c_nchan st f = (mkCC n (Some (cor_size n)), f, zlen d * n)).
  { unfold cor_channel_count. change 64%nat with (S 63) at 1.
    destruct (cor_reads 63 n st r rs before t Hm HC HF Htt HN') as (p & e & Hp & He & H). unfold f.
    rewrite (chan_loop_reads _ _ _ _ _ _ _ _ _ _ _ _ H). rewrite restore_eq by apply zlen_nonneg. cbn [f_data f_pos].
    rewrite map_map, map_map. cbn [c_chan cframe_of c_nchan].
    rewrite (distinct_count _ d) by (auto; intro y; rewrite Hdi; reflexivity).
    assert (HL : last (map (fun _ : cor_rec => n) (firstn 64 (r :: rs))) 0 = n).
    { apply last_const. discriminate. }
    rewrite HL. reflexivity. }
  rewrite HCC. split; [reflexivity|].
  unfold cor_frames_per_obs. rewrite HCC. change 2500%nat with (S 2499).
  assert (HCn : cc_coherent (mkCC n (Some (cor_size n)))) by (split; [exact Hm|right; reflexivity]).
  pose proof (cor_first_read n _ r rs before t Hm HCn HF ltac:(left; reflexivity)) as H2. unfold f.
  rewrite (find_frame_first _ _ _ _ _ _ _ _ H2 HK). cbn [snd c_nchan cframe_of].
  pose proof (mode_cases n Hm). destruct (Z.eqb_spec n 0); [lia|].
  rewrite Z.div_mul by lia. reflexivity.
Qed.
Lemma C46_cor_description_example_proof : exists st rs, cor_history st /\ rs <> [] /\
  Forall (fun r => cor_ok 33 r /\ unambiguous r) rs /\ Forall (fun r => k_id r = 2 \/ k_id r = 6) rs /\
  assumed_nchan st = 33 /\ NoDup [500; 533] /\
  (forall c, In c [500; 533] <-> In c (map k_chan (firstn 64 rs))).
Proof.
  destruct (demo_cor_ok 33 500 1 2) as [W U]; [simpl; tauto|lia|lia|lia|].
  destruct (demo_cor_ok 33 533 1 2) as [W2 U2]; [simpl; tauto|lia|lia|lia|].
  exists (mkCC 33 (Some 1088)), [demo_cor 33 500 1 2; demo_cor 33 533 1 2; demo_cor 33 500 1 2].
  split; [apply stale_history|]. split; [discriminate|].
  split; [repeat (apply Forall_cons; [split; assumption|]); apply Forall_nil|].
  split; [repeat (apply Forall_cons; [left; reflexivity|]); apply Forall_nil|]. split; [reflexivity|].
  split; [repeat constructor; simpl; lia|]. intro c. cbn [firstn map k_chan demo_cor]. simpl. tauto.
Qed.

(** C46: up to 2499 bytes before the first frame that never look like a sync word are skipped one by
    one, after any history, if at least one largest frame follows. *)
Lemma C46_garbage_skipped_proof : forall n st rs before g t, In n cor_modes -> cor_history st ->
  Forall (fun r => cor_ok n r /\ unambiguous r) rs -> Forall (fun r => k_id r = 2 \/ k_id r = 6) rs ->
  0 < zlen g < 2500 -> 6176 <= zlen rs * (32 + 32 * n) ->
  let data := before ++ g ++ flat_map cor_bytes rs ++ t in bytes_ok data ->
  (forall i, 0 <= i < zlen g -> ztake 4 (zdrop (zlen before + i) data) <> sync_bytes) ->
  let f := mkFile data (zlen before) in
  exists st', frame_size read_cor is_cor st f = (st', f, Ok (32 + 32 * n)).
Proof.
  intros n st rs before g t Hm HH HF HID Hg HL data HB HS f.
  destruct (cor_history_coherent _ HH) as [C1 C2]. assert (HC : cc_coherent st) by (split; auto).
  pose proof (zlen_nonneg before) as Lb. pose proof (zlen_nonneg t) as Lt.
  assert (ZL : zlen (flat_map cor_bytes rs) = zlen rs * cor_size n)
    by (rewrite Z.mul_comm; apply (concat_map_len _ cor_bytes (cor_size n) (fun r => cor_ok n r /\ unambiguous r)); auto;
        intros r0 [X _]; apply cor_bytes_zlen; auto).
  unfold frame_size. assert (E : 2500%nat = (length g + S (2499 - length g))%nat) by (unfold zlen in Hg; lia).
  rewrite E. unfold f, data. rewrite cor_skip; auto.
  - destruct rs as [|r rs]; [change (zlen (@nil cor_rec)) with 0 in HL; lia|]. inversion HID; subst.
    replace (before ++ g ++ flat_map cor_bytes (r :: rs) ++ t) with ((before ++ g) ++ flat_map cor_bytes (r :: rs) ++ t) by (rewrite <- app_assoc; reflexivity).
    assert (FR : read_cor cor_fresh (mkFile ((before ++ g) ++ flat_map cor_bytes (r :: rs) ++ t) (zlen before + zlen g)) =
      (mkCC n (Some (cor_size n)), mkFile ((before ++ g) ++ flat_map cor_bytes (r :: rs) ++ t) (zlen before + zlen g + cor_size n), Got (cframe_of n r))).
    { rewrite <- zlen_app. apply cor_first_read; auto.
      - split; [simpl; tauto|left; reflexivity].
      - cbn [cor_fresh cc_nchan]. unfold cor_size. apply mode_cases in Hm. destruct (Z.eq_dec n 192); [left; lia|right]. lia. }
    rewrite (find_frame_first _ _ _ _ _ _ _ _ FR).
    + eexists. unfold restore, f_tell, f_seek. cbn [f_pos f_data Z.eqb]. destruct (Z.ltb_spec (zlen before) 0); [lia|]. cbn [fst].
      f_equal. f_equal. unfold cor_size. lia.
    + unfold is_cor. cbn [cframe_of c_id]. destruct H1 as [-> | ->]; reflexivity.
  - intros i Hi. specialize (HS i Hi). unfold data in HS. rewrite Z.add_comm, <- zdrop_zdrop in HS by lia. rewrite zdrop_app_exact in HS. exact HS.
  - rewrite zlen_app, ZL. unfold cor_size in *. lia.
  - intros ->. change (zlen (@nil Z)) with 0 in Hg. lia.
Qed.
Lemma C46_garbage_skipped_example_proof : exists rs, Forall (fun r => cor_ok 33 r /\ unambiguous r) rs /\ Forall (fun r => k_id r = 2 \/ k_id r = 6) rs /\
  6176 <= zlen rs * (32 + 32 * 33) /\
  (forall i, 0 <= i < 3 -> ztake 4 (zdrop (0 + i) ([1; 222; 192] ++ flat_map cor_bytes rs)) <> sync_bytes) /\
  snd (frame_size read_cor is_cor cor_fresh (mkFile ([1; 222; 192] ++ flat_map cor_bytes rs) 0)) = Ok 1088.
Proof.
  destruct (demo_cor_ok 33 500 1 2) as [W U]; [simpl; tauto|lia|lia|lia|]. change (Z.of_nat 33) with 33 in W.
  set (r := demo_cor 33 500 1 2) in *. exists [r; r; r; r; r; r].
  split; [repeat (apply Forall_cons; [split; assumption|]); apply Forall_nil|].
  split; [repeat (apply Forall_cons; [left; reflexivity|]); apply Forall_nil|]. split; [vm_compute; congruence|].
  split; [|vm_compute; reflexivity].
  intros i Hi. assert (C : i = 0 \/ i = 1 \/ i = 2) by lia. destruct C as [-> |[-> | ->]]; vm_compute; congruence.
Qed.

(** C46 refuted: in a fresh process, a file of five 33-channel frames has "no"
    frame size, zero channels, and asking for the frames per observation divides by zero. *)
Lemma C46_short_file_refuted_proof : exists r, cor_ok 33 r /\ unambiguous r /\ k_id r = 2 /\
  let f := mkFile (flat_map cor_bytes [r; r; r; r; r]) 0 in
  snd (frame_size read_cor is_cor cor_fresh f) = Raise RuntimeError /\
  snd (cor_channel_count read_cor c_chan c_nchan cor_fresh f) = 0 /\
  snd (cor_frames_per_obs read_cor is_cor c_chan c_nchan cor_fresh f) = Raise ZeroDivisionError.
Proof.
  destruct (demo_cor_ok 33 500 1 2) as [W U]; [simpl; tauto|lia|lia|lia|].
  exists (demo_cor 33 500 1 2). split; [exact W|]. split; [exact U|]. split; [reflexivity|]. cbv zeta.
  split; [vm_compute; reflexivity|]. split; vm_compute; reflexivity.
Qed.

(** C46 (partial): for a TBX stream as in C20 whose frames are marked as TBX,
    the frame size and the number of frames per observation (distinct first
    channels among the first 2500 frames) are right. *)
Lemma C46_tbx_description_partial_proof : forall ns nc st rs before t d, tbx_mode ns nc -> tbx_history st ->
  Forall (tbx_ok ns nc) rs -> rs <> [] -> zlen t < 28 + 2 * ns * nc ->
  Forall (fun r => x_id r = 8 /\ x_chan r < 32768) rs ->
  assumed_bytes st <= zlen rs * (28 + 2 * ns * nc) + zlen t ->
  NoDup d -> (forall c, In c d <-> In c (map x_chan (firstn (Z.to_nat 2500) rs))) ->
  let f := mkFile (before ++ flat_map tbx_bytes rs ++ t) (zlen before) in
  snd (frame_size read_tbx is_tbx st f) = Ok (28 + 2 * ns * nc) /\
  snd (tbx_frames_per_obs read_tbx is_tbx t_chan st f) = zlen d.
Proof.
  intros ns nc st rs before t d HM HH HF Hne Ht HID HB Hd Hdi f.
  pose proof (tbx_history_coherent _ HH) as HC. destruct rs as [|r rs]; [congruence|]. clear Hne.
  rewrite assumed_bytes_eq in HB.
  assert (HB' : tc_bytes st <= zlen (r :: rs) * tbx_size ns nc + zlen t) by (unfold tbx_size; lia).
  assert (Htt : zlen t < tbx_size ns nc) by (unfold tbx_size; lia).
  destruct (tbx_first_read ns nc st r rs before t HM HC HF HB') as (st1 & _ & _ & H1).
  assert (HK : forall r, x_id r = 8 -> is_tbx (tframe_of r) = true).
  { intros r0 E. unfold is_tbx, tframe_of. cbn [t_id]. rewrite E. reflexivity. }
  split.
  - unfold frame_size. change 2500%nat with (S 2499). unfold f.
    rewrite (find_frame_first _ _ _ _ _ _ _ _ H1) by (apply HK; inversion HID as [|? ? [E _] ?]; exact E).
    cbn [snd f_pos]. f_equal. unfold tbx_size. lia.
  - unfold tbx_frames_per_obs. change 2500%nat with (S 2499).
    destruct (tbx_reads 2499 ns nc st r rs before t HM HC HF Htt HB') as (st2 & p & e & Hp & He & _ & _ & H). unfold f.
    assert (HA : forall l, incl l (r :: rs) -> Forall (fun a => is_tbx a = true) (map tframe_of l) /\ map t_chan (map tframe_of l) = map x_chan l).
    { intros l Hl. split.
      - apply Forall_map, Forall_forall. intros x Hx. apply HK. rewrite Forall_forall in HID. apply (HID x (Hl x Hx)).
      - rewrite map_map. apply map_ext_in. intros x Hx. rewrite Forall_forall in HID, HF. destruct (HID x (Hl x Hx)) as [_ E].
        destruct (HF x (Hl x Hx)) as (_ & _ & _ & E2 & _). unfold tframe_of. cbn [t_chan].
        rewrite <- (Z.mod_small (x_chan x) (2 ^ 16)) at 1 by lia. apply signed_mod; [lia|]. change (2 ^ (16 - 1)) with 32768. lia. }
    destruct (HA (firstn 2500 (r :: rs))) as [HA1 HA2].
    { intros x Hx. rewrite <- (firstn_skipn 2500 (r :: rs)). apply in_or_app. left. auto. }
    rewrite (obs_loop_reads _ _ _ _ _ _ _ _ _ _ _ H He HA1). cbn [snd]. rewrite HA2.
    apply distinct_count; auto.
Qed.
Lemma C46_tbx_description_example_proof : exists rs, tbx_mode 64 4 /\ Forall (tbx_ok 64 4) rs /\ rs <> [] /\
  Forall (fun r => x_id r = 8 /\ x_chan r < 32768) rs /\
  assumed_bytes tbx_fresh <= zlen rs * (28 + 2 * 64 * 4) + 0 /\
  NoDup [1200; 1204] /\ (forall c, In c [1200; 1204] <-> In c (map x_chan (firstn (Z.to_nat 2500) rs))).
Proof.
  exists (demo_tbx 64 4 1204 :: repeat (demo_tbx 64 4 1200) 16). split; [split; simpl; tauto|].
  split; [apply Forall_cons; [apply (demo_tbx_ok 64 4 1204); lia|]; apply Forall_forall; intros x Hx; apply repeat_spec in Hx; rewrite Hx; apply (demo_tbx_ok 64 4 1200); lia|].
  split; [discriminate|].
  split; [apply Forall_cons; [split; reflexivity|]; apply Forall_forall; intros x Hx; apply repeat_spec in Hx; rewrite Hx; split; reflexivity|].
  split; [vm_compute; congruence|]. split; [repeat constructor; simpl; lia|].
  intro c. rewrite firstn_all2 by (cbn [length repeat]; lia). cbn [map repeat x_chan demo_tbx In]. tauto.
Qed.

Lemma obs_stuck : forall {St A} (reader : St -> file -> St * file * rd A) is_kind chan st f loc,
  reader st f = (st, f, BadSync loc) -> 0 <= f_pos f ->
  forall n seen, obs_loop_tbx reader is_kind chan n st f seen = (st, f, seen).
Proof.
  intros St A reader is_kind chan st f loc H Hp. induction n as [|n IH]; intro seen; [reflexivity|].
  cbn [obs_loop_tbx]. rewrite H.
  assert (E : f_rel 0 f = f) by (apply file_eq; [apply f_rel_data|rewrite f_rel_pos by lia; lia]).
  rewrite E. apply IH.
Qed.

Lemma obs_after_stuck : forall {St A} (reader : St -> file -> St * file * rd A) is_kind chan n st f st1 loc,
  forall H1 : reader st f = (st1, f, BadSync loc), f_rel 0 f = f ->
  (forall n seen, obs_loop_tbx reader is_kind chan n st1 f seen = (st1, f, seen)) ->
  obs_loop_tbx reader is_kind chan (S n) st f [] = (st1, f, []).
Proof. intros St A reader is_kind chan n st f st1 loc H1 E H. cbn [obs_loop_tbx]. rewrite H1, E. apply H. Qed.

(** C46 refuted: one corrupted frame hides all the frames after it from the
    TBX count, because the loop does not move past it. *)
Lemma C46_tbx_stuck_refuted_proof : exists r, tbx_ok 64 4 r /\ x_id r = 8 /\
  let data := repeat 0 (Z.to_nat 540) ++ flat_map tbx_bytes (repeat r 16) in
  snd (tbx_frames_per_obs read_tbx is_tbx t_chan tbx_fresh (mkFile data 0)) = 0.
Proof.
  exists (demo_tbx 64 4 1200).
  split; [apply (demo_tbx_ok 64 4 1200); lia|]. split; [reflexivity|]. cbv zeta.
  set (data := repeat 0 (Z.to_nat 540) ++ flat_map tbx_bytes (repeat (demo_tbx 64 4 1200) 16)).
  assert (H1 : read_tbx tbx_fresh (mkFile data 0) = (mkTC 0 0 None, mkFile data 0, BadSync 0)) by (vm_compute; reflexivity).
  assert (H2 : read_tbx (mkTC 0 0 None) (mkFile data 0) = (mkTC 0 0 None, mkFile data 0, BadSync 0)) by (vm_compute; reflexivity).
  clearbody data. unfold tbx_frames_per_obs. change 2500%nat with (S 2499). generalize 2499%nat. intro k.
  assert (E : f_rel 0 (mkFile data 0) = mkFile data 0) by reflexivity.
  rewrite (obs_after_stuck _ _ _ _ _ _ _ _ H1 E (obs_stuck _ _ _ _ _ _ H2 ltac:(cbn; lia))). reflexivity.
Qed.
