(** Proofs about the COR and TBX readers. *)
From Coq Require Import List ZArith Lia Bool.
From Verif Require Import M_Cor S_Cor P_Drx P_Drx2.
Import ListNotations.
Open Scope Z_scope.
Ltac Zify.zify_post_hook ::= Z.div_mod_to_equations.

(** ** Words and signed fields *)
Lemma signed_mod : forall b v, 0 < b -> - 2 ^ (b - 1) <= v < 2 ^ (b - 1) -> signed b (v mod 2 ^ b) = v.
Proof.
  intros b v Hb H. unfold signed.
  assert (E : 2 ^ b = 2 * 2 ^ (b - 1)) by (rewrite <- Z.pow_succ_r by lia; f_equal; lia).
  rewrite Zplus_mod_idemp_l. rewrite Z.mod_small by lia. lia.
Qed.
Lemma signed_unsigned : forall v, 0 <= v < 65536 -> signed 16 v mod 65536 = v.
Proof.
  intros v H. unfold signed. change (2 ^ (16 - 1)) with 32768. change (2 ^ 16) with 65536. lia.
Qed.
Lemma bswap_be_mod : forall n v, bswap n (le_val (be n v)) = v mod 256 ^ Z.of_nat n.
Proof. intros. rewrite bswap_load; [apply be_val_be|apply be_ok|apply be_zlen]. Qed.

Lemma words_le : forall ws, Forall word32 ws -> words (flat_map (le 4) ws) = ws.
Proof.
  induction ws as [|w ws IH]; intro H; [reflexivity|]. inversion H as [|? ? Hw Hr]; subst.
  change (words (flat_map (le 4) (w :: ws))) with (le_val (le 4 w) :: words (flat_map (le 4) ws)).
  rewrite IH by auto. f_equal.
  rewrite le_val_le. unfold word32 in Hw. apply Z.mod_small. exact Hw.
Qed.
Lemma all_words : forall vs, Forall vis_ok vs -> Forall word32 (flat_map vis_words vs).
Proof.
  induction vs as [|v vs IH]; intro H; [constructor|]. inversion H; subst.
  cbn [flat_map]. apply Forall_app. split; auto.
Qed.

Lemma conj_lxor : forall w, word32 w -> Z.lxor w 2147483648 = if w <? 2 ^ 31 then w + 2 ^ 31 else w - 2 ^ 31.
Proof.
  intros w H. unfold word32 in H. change 2147483648 with (2 ^ 31).
  assert (E : w = w mod 2 ^ 31 + (w / 2 ^ 31) * 2 ^ 31) by (pose proof (Z.div_mod w (2 ^ 31)); lia).
  set (lo := w mod 2 ^ 31) in *. set (hi := w / 2 ^ 31) in *.
  assert (Hlo : 0 <= lo < 2 ^ 31) by (apply Z.mod_pos_bound; lia).
  assert (Hhi : hi = 0 \/ hi = 1) by (unfold hi; clear -H; lia).
  assert (L : Z.lxor lo (2 ^ 31) = lo + 2 ^ 31).
  { rewrite <- Z.add_nocarry_lxor; [reflexivity|].
    apply Z.bits_inj'. intros i Hi. rewrite Z.bits_0, Z.land_spec, Z.pow2_bits_eqb by lia.
    destruct (Z.eqb_spec 31 i); [|apply andb_false_r]. subst i.
    rewrite andb_true_r. apply Z.bits_above_log2; [lia|]. destruct (Z.eq_dec lo 0) as [->|]; [reflexivity|].
    apply Z.log2_lt_pow2; lia. }
  clearbody lo hi. destruct Hhi as [-> | ->].
  - replace w with lo by lia. rewrite L. destruct (Z.ltb_spec lo (2 ^ 31)); lia.
  - assert (E2 : w = Z.lxor lo (2 ^ 31)) by lia. rewrite E2 at 1. rewrite Z.lxor_assoc, Z.lxor_nilpotent, Z.lxor_0_r.
    destruct (Z.ltb_spec w (2 ^ 31)); lia.
Qed.

Lemma fix_yx_eq : forall vs, Forall vis_ok vs ->
  fix_yx (flat_map vis_words vs) =
  flat_map vis_words (map (fun v => mkVis (v_xx v) (v_xy v) (conj (v_xy v)) (v_yy v)) vs).
Proof.
  induction vs as [|v vs IH]; intro H; [reflexivity|]. inversion H as [|? ? Hv Hr]; subst.
  cbn [flat_map map vis_words app fix_yx v_xx v_xy v_yx v_yy]. rewrite IH by auto.
  unfold vis_ok, vis_words in Hv. rewrite Forall_forall in Hv.
  rewrite conj_lxor by (apply Hv; simpl; tauto). reflexivity.
Qed.

(** ** COR layout *)
Lemma flat_map_zlen : forall A B (f : A -> list B) k s, (forall x, zlen (f x) = k) -> zlen (flat_map f s) = k * zlen s.
Proof.
  intros A B f k s H. induction s as [|x s IH]; cbn [flat_map]; [cbn; lia|].
  rewrite zlen_app, IH, H, zlen_cons. lia.
Qed.
Lemma vis_zlen : forall vs, zlen (flat_map (le 4) (flat_map vis_words vs)) = 32 * zlen vs.
Proof.
  intro. rewrite (flat_map_zlen _ _ _ 4) by (intro; apply le_zlen).
  rewrite (flat_map_zlen _ _ _ 8) by reflexivity. lia.
Qed.
Lemma cor_head_zlen : forall r, zlen (concat (cor_head r)) = 32.
Proof. intro r. unfold cor_head, sync_bytes. cbn [concat]. rewrite !zlen_app, !be_zlen. reflexivity. Qed.
Lemma cor_bytes_zlen : forall n r, cor_ok n r -> zlen (cor_bytes r) = cor_size n.
Proof.
  intros n r W. unfold cor_bytes, cor_size. rewrite zlen_app, cor_head_zlen, vis_zlen.
  destruct W as (_ & _ & _ & _ & _ & _ & _ & _ & _ & -> & _). lia.
Qed.

Ltac chunk k := rewrite (slice_chunk k) by (cbn [firstn concat nth]; rewrite ?zlen_app, ?be_zlen; reflexivity); cbn [nth].

Lemma slice_in_l : forall a b i n, 0 <= i -> 0 <= n -> i + n <= zlen a -> slice i n (a ++ b) = slice i n a.
Proof.
  intros a b i n Hi Hn H. unfold slice. rewrite zdrop_app_le by lia. apply ztake_app_le.
  rewrite zlen_zdrop by lia. lia.
Qed.

Lemma vis_slice : forall vs k, 0 <= k < zlen vs ->
  slice (k * 8 * 4) 4 (flat_map (le 4) (flat_map vis_words vs)) = le 4 (fst (v_xx (znth zero_vis k vs))).
Proof.
  intros vs k Hk. remember (Z.to_nat k) as m eqn:Em. revert vs k Hk Em.
  induction m as [|m IH]; intros vs k Hk Em; (destruct vs as [|v vs]; [cbn in Hk; lia|]).
  - assert (k = 0) by lia. subst k. cbn [flat_map vis_words app]. apply slice_app_exact; reflexivity.
  - rewrite zlen_cons in Hk. cbn [flat_map]. rewrite flat_map_app.
    rewrite slice_app_r by (rewrite (flat_map_zlen _ _ _ 4) by (intro; apply le_zlen); change (zlen (vis_words v)) with 8; lia).
    rewrite (flat_map_zlen _ _ _ 4) by (intro; apply le_zlen). change (zlen (vis_words v)) with 8.
    replace (k * 8 * 4 - 4 * 8) with ((k - 1) * 8 * 4) by lia. rewrite IH by lia.
    change (v :: vs) with ([v] ++ vs). rewrite znth_app_r by (change (zlen [v]) with 1; lia).
    change (zlen [v]) with 1. reflexivity.
Qed.

(** Probing inside the frame sees the data ... *)
Lemma probe_inside : forall n r x k, cor_ok n r -> 0 <= k < n ->
  cor_probe k (cor_bytes r ++ x) = (fst (v_xx (znth zero_vis k (k_vis r))) =? 1558102238).
Proof.
  intros n r x k W Hk. unfold cor_probe. pose proof (cor_bytes_zlen n r W) as HZ. unfold cor_size in HZ.
  rewrite slice_in_l by lia. unfold cor_bytes. rewrite slice_app_r by (rewrite cor_head_zlen; lia).
  rewrite cor_head_zlen. replace (32 + k * 8 * 4 - 32) with (k * 8 * 4) by lia.
  destruct W as (_ & _ & _ & _ & _ & _ & _ & _ & _ & HL & HV).
  rewrite vis_slice by lia. rewrite le_val_le. rewrite Z.mod_small; [reflexivity|].
  rewrite Forall_forall in HV. specialize (HV _ (znth_In zero_vis k (k_vis r) ltac:(lia))).
  unfold vis_ok in HV. rewrite Forall_forall in HV. apply HV. simpl. tauto.
Qed.
(** ... and probing just after it sees the next frame's sync word. *)
Lemma probe_next : forall n r x, cor_ok n r -> ztake 4 x = sync_bytes -> cor_probe n (cor_bytes r ++ x) = true.
Proof.
  intros n r x W Hx. unfold cor_probe. pose proof (cor_bytes_zlen n r W) as HZ. unfold cor_size in HZ.
  rewrite slice_app_r by lia. unfold slice. rewrite zdrop_0 by lia. rewrite Hx. reflexivity.
Qed.

Lemma mode_cases : forall n, In n cor_modes -> n = 33 \/ n = 72 \/ n = 112 \/ n = 192.
Proof. intros n H. unfold cor_modes in H. simpl in H. lia. Qed.

Lemma detect_own : forall n r x, In n cor_modes -> cor_ok n r -> unambiguous r -> cor_detect n (cor_bytes r ++ x) = n.
Proof.
  intros n r x Hm W U. unfold cor_detect.
  assert (HL : zlen (k_vis r) = n) by (destruct W as (_ & _ & _ & _ & _ & _ & _ & _ & _ & HL & _); auto).
  assert (HP : forall k, In k [33; 72; 112] -> (k <? n) && cor_probe k (cor_bytes r ++ x) = false).
  { intros k Hk. destruct (Z.ltb_spec k n); [|reflexivity]. cbn [andb].
    rewrite (probe_inside n) by (auto; simpl in Hk; lia). apply Z.eqb_neq. apply U; [auto|lia]. }
  rewrite !HP by (simpl; tauto). reflexivity.
Qed.
Lemma detect_other : forall n N r x, In n cor_modes -> In N cor_modes -> n < N -> cor_ok n r -> unambiguous r ->
  ztake 4 x = sync_bytes -> cor_detect N (cor_bytes r ++ x) = n.
Proof.
  intros n N r x Hm HM Hlt W U Hx. unfold cor_detect.
  assert (HL : zlen (k_vis r) = n) by (destruct W as (_ & _ & _ & _ & _ & _ & _ & _ & _ & HL & _); auto).
  assert (HP : forall k, In k [33; 72; 112] -> k < n -> cor_probe k (cor_bytes r ++ x) = false).
  { intros k Hk Hkn. rewrite (probe_inside n) by (auto; simpl in Hk; lia). apply Z.eqb_neq. apply U; [auto|lia]. }
  pose proof (probe_next n r x W Hx) as HN.
  apply mode_cases in Hm. apply mode_cases in HM.
  destruct Hm as [-> |[-> |[-> | ->]]]; [| | |lia].
  - rewrite HN. destruct (Z.ltb_spec 33 N); [reflexivity|lia].
  - rewrite (HP 33), HN by (simpl; lia). rewrite andb_false_r. destruct (Z.ltb_spec 72 N); [reflexivity|lia].
  - rewrite (HP 33), (HP 72), HN by (simpl; lia). rewrite !andb_false_r. destruct (Z.ltb_spec 112 N); [reflexivity|lia].
Qed.

(** ** COR frame content *)
Definition cframe_of (n : Z) (r : cor_rec) : cframe :=
  mkC (k_id r) (k_count r) (k_secs r) (k_chan r) (k_gain r) (k_tag r) (k_navg r) (k_s0 r) (k_s1 r) n
      (flat_map vis_words (seen_vis r)).

Lemma cor_head_slices : forall r x,
  let raw := concat (cor_head r) ++ x in
  slice 0 4 raw = sync_bytes /\ slice 4 4 raw = be 1 (k_id r) ++ be 3 (k_count r) /\
  slice 8 4 raw = be 4 (k_secs r) /\ slice 12 2 raw = be 2 (k_chan r) /\ slice 14 2 raw = be 2 (k_gain r) /\
  slice 16 8 raw = be 8 (k_tag r) /\ slice 24 4 raw = be 4 (k_navg r) /\
  slice 28 2 raw = be 2 (k_s0 r) /\ slice 30 2 raw = be 2 (k_s1 r).
Proof.
  intros r x raw. unfold raw. pose proof (cor_head_zlen r) as HZ.
  rewrite !(slice_in_l (concat (cor_head r)) x) by lia. unfold cor_head.
  split; [chunk 0%nat; reflexivity|]. split; [chunk 1%nat; reflexivity|]. split; [chunk 2%nat; reflexivity|].
  split; [chunk 3%nat; reflexivity|]. split; [chunk 4%nat; reflexivity|]. split; [chunk 5%nat; reflexivity|].
  split; [chunk 6%nat; reflexivity|]. split; [chunk 7%nat; reflexivity|]. chunk 8%nat. reflexivity.
Qed.

Lemma cor_parse_ok : forall n r, cor_ok n r ->
  cor_parse n (cor_bytes r) = cframe_of n r /\ valid_sync (cor_bytes r) = true.
Proof.
  intros n r W. pose proof (cor_bytes_zlen n r W) as HZ. unfold cor_size in HZ.
  destruct W as (W1 & W2 & W3 & W4 & W5 & W6 & W7 & W8 & W9 & HL & HV).
  unfold cor_bytes in *. set (x := flat_map (le 4) (flat_map vis_words (k_vis r))) in *.
  destruct (cor_head_slices r x) as (F0 & F1 & F2 & F3 & F4 & F5 & F6 & F7 & F8).
  unfold cor_parse, valid_sync. rewrite F0, F1, F2, F3, F4, F5, F6, F7, F8.
  destruct (bitfields (k_id r) (k_count r) W1 W2) as [B1 B2]. rewrite B1, B2.
  rewrite !bswap_be_mod. change (256 ^ Z.of_nat 2) with (2 ^ 16). change (256 ^ Z.of_nat 4) with (2 ^ 32).
  change (256 ^ Z.of_nat 8) with (2 ^ 64).
  rewrite (signed_mod 64), (signed_mod 32), !(signed_mod 16 (k_s0 r)), !(signed_mod 16 (k_s1 r)) by (change (2 ^ (64 - 1)) with (2 ^ 63); change (2 ^ (32 - 1)) with (2 ^ 31); change (2 ^ (16 - 1)) with (2 ^ 15); lia).
  rewrite (Z.mod_small (k_chan r)), (Z.mod_small (k_gain r)), (Z.mod_small (k_secs r)) by lia.
  rewrite !signed_unsigned by lia. split; [|reflexivity].
  assert (HS : slice 32 (n * 8 * 4) (concat (cor_head r) ++ x) = x).
  { rewrite slice_app_r by (rewrite cor_head_zlen; lia). rewrite cor_head_zlen. apply slice_all.
    unfold x. rewrite vis_zlen. lia. }
  rewrite HS. unfold x. rewrite words_le by (apply all_words; auto).
  unfold cframe_of, seen_vis. destruct (k_s0 r =? k_s1 r); [rewrite fix_yx_eq by auto|]; reflexivity.
Qed.

(** ** Reading *)
Lemma f_read_at : forall a c n, 0 <= n ->
  f_read n (mkFile (a ++ c) (zlen a)) = (mkFile (a ++ c) (zlen a + zlen (ztake n c)), ztake n c).
Proof.
  intros a c n Hn. unfold f_read. cbn [f_data f_pos]. destruct (Z.ltb_spec n 0); [lia|].
  rewrite zdrop_app_exact. reflexivity.
Qed.
Lemma f_rel_back : forall d p k, 0 <= p -> f_rel (- k) (mkFile d (p + k)) = mkFile d p.
Proof.
  intros d p k Hp. unfold f_rel, f_seek. cbn [f_pos f_data]. change (1 =? 0) with false. change (1 =? 1) with true. cbn [andb].
  destruct (Z.ltb_spec (p + k + - k) 0); [lia|]. cbn [fst]. f_equal. lia.
Qed.

Definition cc_coherent (st : ccache) : Prop :=
  In (cc_nchan st) cor_modes /\ (cc_size st = None \/ cc_size st = Some (cor_size (cc_nchan st))).

Lemma cor_size_pos : forall n, In n cor_modes -> 1088 <= cor_size n.
Proof. intros n H. apply mode_cases in H. unfold cor_size. lia. Qed.
Lemma dispatch_mode : forall n, In n cor_modes -> cor_dispatch n = n.
Proof. intros n H. apply mode_cases in H. destruct H as [-> |[-> |[-> | ->]]]; reflexivity. Qed.

Lemma sz_coherent : forall st, cc_coherent st ->
  match cc_size st with Some s => s | None => cor_size (cc_nchan st) end = cor_size (cc_nchan st).
Proof. intros st [_ [-> | ->]]; reflexivity. Qed.

Lemma cor_impl_own : forall n st a c r, In n cor_modes -> cc_coherent st -> cc_nchan st = n -> cor_ok n r -> unambiguous r ->
  cor_impl n st (mkFile (a ++ cor_bytes r ++ c) (zlen a)) =
  (mkCC n (Some (cor_size n)), mkFile (a ++ cor_bytes r ++ c) (zlen a + cor_size n), inr (Got (cframe_of n r))).
Proof.
  intros n st a c r Hm HC HN W U. unfold cor_impl. rewrite <- HN, (sz_coherent st HC), HN.
  pose proof (cor_bytes_zlen n r W) as HZ. pose proof (cor_size_pos n Hm).
  rewrite f_read_at by lia. rewrite <- HZ at 1 2. rewrite ztake_app_exact. rewrite HZ, Z.eqb_refl. cbn [negb].
  rewrite <- HZ. rewrite !ztake_app_exact.
  pose proof (detect_own n r [] Hm W U) as HD. rewrite app_nil_r in HD. rewrite HD. rewrite Z.eqb_refl. cbn [negb].
  destruct (cor_parse_ok n r W) as [P1 P2]. rewrite P1, P2. cbn [negb]. reflexivity.
Qed.

(** The central lemma: a frame of n channels is returned whole if the cache
    holds n, or holds more and enough bytes follow, beginning with a frame. *)
Lemma read_cor_ok : forall n st a c r, In n cor_modes -> cc_coherent st -> cor_ok n r -> unambiguous r ->
  (cc_nchan st = n \/
   (n < cc_nchan st /\ ztake 4 c = sync_bytes /\ cor_size (cc_nchan st) <= cor_size n + zlen c)) ->
  read_cor st (mkFile (a ++ cor_bytes r ++ c) (zlen a)) =
  (mkCC n (Some (cor_size n)), mkFile (a ++ cor_bytes r ++ c) (zlen a + cor_size n), Got (cframe_of n r)).
Proof.
  intros n st a c r Hm HC W U HN. unfold read_cor. rewrite dispatch_mode by apply HC.
  destruct HN as [HN|(Hlt & Hs & Hlen)].
  - rewrite HN. cbn [cor_loop]. rewrite cor_impl_own by auto. reflexivity.
  - cbn [cor_loop]. unfold cor_impl at 1. rewrite (sz_coherent st HC).
    set (N := cc_nchan st) in *. assert (HM : In N cor_modes) by apply HC.
    pose proof (cor_bytes_zlen n r W) as HZ. pose proof (cor_size_pos n Hm). pose proof (cor_size_pos N HM).
    rewrite f_read_at by lia.
    assert (HR : zlen (ztake (cor_size N) (cor_bytes r ++ c)) = cor_size N).
    { rewrite zlen_ztake, zlen_app by lia. lia. }
    rewrite HR, Z.eqb_refl. cbn [negb].
    assert (Hgap : cor_size n + 4 <= cor_size N).
    { unfold cor_size. clear -Hlt Hm HM. apply mode_cases in Hm. apply mode_cases in HM. lia. }
    rewrite ztake_app_ge by lia. rewrite (detect_other n N); auto.
    + destruct (Z.eqb_spec n N); [lia|]. cbn [negb]. rewrite f_rel_back by apply zlen_nonneg.
      rewrite cor_impl_own; auto. split; [exact Hm|]. left. reflexivity.
    + rewrite ztake_ztake. rewrite Z.min_l by lia. auto.
Qed.

(** ** Any bytes, any coherent cache *)
Lemma cor_no_second_retry : forall N st f st1 f1 n, In N cor_modes -> cc_coherent st -> cc_nchan st = N ->
  0 <= f_pos f ->
  cor_impl N st f = (st1, f1, inl n) ->
  f1 = f /\ In n cor_modes /\ n < N /\ st1 = mkCC n None /\
  forall st2 f2 m, cor_impl n st1 f1 <> (st2, f2, inl m).
Proof.
  intros N st f st1 f1 n HM HC HN Hp H. unfold cor_impl in H. rewrite <- HN, (sz_coherent st HC), HN in H.
  pose proof (cor_size_pos N HM).
  destruct (f_read (cor_size N) f) as [g raw] eqn:ER.
  destruct (Z.eqb_spec (zlen raw) (cor_size N)) as [E|E]; cbn [negb] in H; [|inversion H].
  destruct (Z.eqb_spec (cor_detect N raw) N) as [ED|ED]; cbn [negb] in H.
  { destruct (valid_sync raw); cbn [negb] in H; inversion H. }
  inversion H; subst st1 f1 n. clear H.
  assert (Hf : f_rel (- cor_size N) g = f).
  { unfold f_read in ER. destruct (Z.ltb_spec (cor_size N) 0); [lia|]. inversion ER; subst g raw. rewrite E.
    rewrite f_rel_back by auto. destruct f; reflexivity. }
  split; [exact Hf|].
  set (n := cor_detect N raw) in *.
  assert (Hn : (n = 33 \/ n = 72 \/ n = 112) /\ n < N /\ forall k, In k [33; 72; 112] -> k < n -> cor_probe k raw = false).
  { unfold n, cor_detect in *.
    destruct (Z.ltb_spec 33 N); destruct (cor_probe 33 raw) eqn:E3; cbn [andb] in *;
    destruct (Z.ltb_spec 72 N); destruct (cor_probe 72 raw) eqn:E7; cbn [andb] in *;
    destruct (Z.ltb_spec 112 N); destruct (cor_probe 112 raw) eqn:E1; cbn [andb] in *;
    try congruence; (split; [lia|]); (split; [lia|]); intros k Hk Hlt; simpl in Hk;
    destruct Hk as [<- |[<- |[<- |[]]]]; try lia; auto. }
  destruct Hn as (Hn & Hlt & HP).
  assert (Hmn : In n cor_modes) by (unfold cor_modes; simpl; lia).
  split; [auto|]. split; [auto|]. split; [auto|]. intros st2 f2 m H2. unfold cor_impl in H2. cbn [cc_size] in H2.
  rewrite Hf in H2. destruct (f_read (cor_size n) f) as [g2 raw2] eqn:ER2.
  destruct (Z.eqb_spec (zlen raw2) (cor_size n)) as [E2|E2]; cbn [negb] in H2; [|inversion H2].
  assert (HD : cor_detect n raw2 = n).
  { assert (HP2 : forall k, In k [33; 72; 112] -> (k <? n) && cor_probe k raw2 = false).
    { intros k Hk. destruct (Z.ltb_spec k n); [|reflexivity]. cbn [andb]. rewrite <- (HP k Hk) by auto.
      unfold cor_probe. f_equal. f_equal.
      unfold f_read in ER, ER2. pose proof (cor_size_pos n Hmn).
      destruct (Z.ltb_spec (cor_size N) 0); [lia|]. destruct (Z.ltb_spec (cor_size n) 0); [lia|].
      inversion ER; inversion ER2; subst raw raw2. set (rest := zdrop (f_pos f) (f_data f)) in *.
      assert (Hin : 0 <= 32 + k * 8 * 4 /\ 32 + k * 8 * 4 + 4 <= cor_size n /\ cor_size n <= cor_size N).
      { unfold cor_size. simpl in Hk. lia. }
      rewrite zlen_ztake in E, E2 by lia. pose proof (zlen_nonneg rest) as Hrest.
      rewrite <- (ztake_zdrop (cor_size n) rest) at 2.
      assert (Hz : zlen (ztake (cor_size n) rest) = cor_size n) by (rewrite zlen_ztake by lia; lia).
      rewrite ztake_app_ge by lia. symmetry. apply slice_in_l; lia. }
    unfold cor_detect. rewrite !HP2 by (simpl; tauto). reflexivity. }
  rewrite HD, Z.eqb_refl in H2. cbn [negb] in H2. destruct (valid_sync raw2); inversion H2.
Qed.

Definition cor_outcome (st : ccache) (f : file) (st' : ccache) (f' : file) (r : rd cframe) : Prop :=
  f_data f' = f_data f /\ cc_coherent st' /\
  match r with
  | AtEOF => f_pos f' = Z.max (f_pos f) (zlen (f_data f)) /\ zlen (f_data f) - f_pos f < cor_size (cc_nchan st) /\
             cc_nchan st' = cc_nchan st
  | BadSync loc => loc = f_pos f /\ f_pos f' = f_pos f /\ st' = cor_fresh /\
                   ztake 4 (zdrop (f_pos f) (f_data f)) <> sync_bytes
  | Got d => f_pos f' = f_pos f + cor_size (c_nchan d) /\ c_nchan d = cc_nchan st' /\
             cor_size (c_nchan d) <= zlen (f_data f) - f_pos f /\ c_nchan d <= cc_nchan st /\
             ztake 4 (zdrop (f_pos f) (f_data f)) = sync_bytes
  end.

Lemma cor_impl_final : forall N st f st1 f1 r, In N cor_modes -> cc_coherent st -> cc_nchan st = N ->
  0 <= f_pos f -> bytes_ok (f_data f) -> cor_impl N st f = (st1, f1, inr r) -> cor_outcome st f st1 f1 r.
Proof.
  intros N st f st1 f1 r HM HC HN Hp HB H. unfold cor_impl in H. rewrite <- HN, (sz_coherent st HC), HN in H.
  pose proof (cor_size_pos N HM). unfold f_read in H. destruct (Z.ltb_spec (cor_size N) 0); [lia|].
  set (rest := zdrop (f_pos f) (f_data f)) in *.
  assert (HR : zlen rest = Z.max 0 (zlen (f_data f) - f_pos f)) by (apply zlen_zdrop; lia).
  assert (HT : zlen (ztake (cor_size N) rest) = Z.min (cor_size N) (zlen rest)) by (apply zlen_ztake; lia).
  assert (HC1 : cc_coherent (mkCC N (Some (cor_size N)))) by (split; [exact HM|right; reflexivity]).
  destruct (Z.eqb_spec (zlen (ztake (cor_size N) rest)) (cor_size N)) as [E|E]; cbn [negb] in H.
  - destruct (Z.eqb_spec (cor_detect N (ztake (cor_size N) rest)) N); cbn [negb] in H; [|inversion H].
    pose proof (sync_iff (ztake (cor_size N) rest) ltac:(apply bytes_ok_ztake, bytes_ok_zdrop; auto) ltac:(lia)) as HS.
    rewrite ztake_ztake, Z.min_l in HS by lia.
    destruct (valid_sync (ztake (cor_size N) rest)) eqn:EV; cbn [negb] in H; inversion H; subst st1 f1 r; unfold cor_outcome; cbn [f_data f_pos c_nchan cor_parse cc_nchan].
    + split; [auto|]. split; [auto|]. split; [lia|]. split; [auto|]. split; [lia|]. split; [lia|]. fold rest. apply HS. auto.
    + rewrite E, f_rel_back by auto. cbn [f_data f_pos]. split; [auto|]. split; [split; [simpl; tauto|left; reflexivity]|].
      split; [reflexivity|]. split; [auto|]. split; [reflexivity|]. fold rest. intro X. apply HS in X. discriminate.
  - inversion H; subst st1 f1 r. unfold cor_outcome. cbn [f_data f_pos cc_nchan]. rewrite HN. 
    split; [auto|]. split; [auto|]. split; [lia|]. split; [lia|auto].
Qed.

Lemma read_cor_total : forall st f st' f' r, cc_coherent st -> 0 <= f_pos f -> bytes_ok (f_data f) ->
  read_cor st f = (st', f', r) -> cor_outcome st f st' f' r.
Proof.
  intros st f st' f' r HC Hp HB H. unfold read_cor in H. rewrite dispatch_mode in H by apply HC.
  set (N := cc_nchan st) in *. assert (HM : In N cor_modes) by apply HC.
  cbn [cor_loop] in H. destruct (cor_impl N st f) as [[st1 f1] [n|r1]] eqn:E1.
  - destruct (cor_no_second_retry N st f st1 f1 n HM HC eq_refl Hp E1) as (-> & Hn & Hlt & -> & HX).
    destruct (cor_impl n (mkCC n None) f) as [[st2 f2] [m|r2]] eqn:E2; [exfalso; eapply HX; eauto|].
    inversion H; subst st2 f2 r2.
    assert (HC1 : cc_coherent (mkCC n None)) by (split; [exact Hn|left; reflexivity]).
    pose proof (cor_impl_final n _ f st' f' r Hn HC1 eq_refl Hp HB E2) as HO.
    unfold cor_outcome in *. destruct HO as (O1 & O2 & O3). split; [auto|]. split; [auto|]. cbn [cc_nchan] in O3.
    destruct r as [d| |loc]; [|exfalso|exact O3].
    + destruct O3 as (A1 & A2 & A3 & A4 & A5). split; [auto|]. split; [auto|]. split; [auto|]. split; [fold N; lia|auto].
    + (* the wider read succeeded *)
      destruct O3 as (_ & A2 & _). clear -E1 A2 HC HM Hlt Hp. unfold cor_impl in E1. unfold N in E1 at 1.
      rewrite (sz_coherent st HC) in E1. fold N in E1. pose proof (cor_size_pos N HM).
      unfold f_read in E1. destruct (Z.ltb_spec (cor_size N) 0); [lia|].
      destruct (Z.eqb_spec (zlen (ztake (cor_size N) (zdrop (f_pos f) (f_data f)))) (cor_size N)) as [E|E]; cbn [negb] in E1; [|inversion E1].
      rewrite zlen_ztake, zlen_zdrop in E by lia. unfold cor_size in *. lia.
  - inversion H; subst st1 f1 r1. eapply cor_impl_final; eauto.
Qed.
