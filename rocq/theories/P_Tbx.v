(** Proofs about the TBX reader, and streams for both readers. *)
From Coq Require Import List ZArith Lia Bool.
From Verif Require Import M_Cor S_Drx S_Cor P_Drx P_Drx2 P_Cor.
Import ListNotations.
Open Scope Z_scope.
Ltac Zify.zify_post_hook ::= Z.div_mod_to_equations.

Lemma tbx_head_zlen : forall r, zlen (concat (tbx_head r)) = 28.
Proof. intro r. unfold tbx_head, sync_bytes. cbn [concat]. rewrite !zlen_app, !be_zlen. reflexivity. Qed.
Lemma tbx_bytes_zlen : forall ns nc r, tbx_ok ns nc r -> zlen (tbx_bytes r) = tbx_size ns nc.
Proof.
  intros ns nc r W. unfold tbx_bytes, tbx_size. rewrite zlen_app, tbx_head_zlen, zlen_map.
  destruct W as (_ & _ & _ & _ & _ & _ & _ & -> & _). lia.
Qed.
Lemma tbx_mode_cases : forall ns nc, tbx_mode ns nc ->
  (ns = 64 \/ ns = 128 \/ ns = 256) /\ (nc = 4 \/ nc = 8 \/ nc = 12 \/ nc = 16).
Proof. intros ns nc [H1 H2]. simpl in *. lia. Qed.
Lemma tbx_mode_supported : forall ns nc, tbx_supported ns nc = true <-> tbx_mode ns nc.
Proof.
  intros ns nc. unfold tbx_supported, tbx_mode. simpl. rewrite andb_true_iff, !orb_true_iff, !Z.eqb_eq. intuition lia.
Qed.
Lemma tbx_size_pos : forall ns nc, tbx_mode ns nc -> 540 <= tbx_size ns nc <= 8220.
Proof.
  intros ns nc H. apply tbx_mode_cases in H. unfold tbx_size.
  destruct H as [[-> |[-> | ->]] [-> |[-> |[-> | ->]]]]; lia.
Qed.
Lemma tbx_dispatch_mode : forall ns nc, tbx_mode (fst (tbx_dispatch ns nc)) (snd (tbx_dispatch ns nc)).
Proof.
  intros. unfold tbx_dispatch, tbx_mode. cbn [fst snd].
  destruct (ns =? 64), (ns =? 128), (nc =? 4), (nc =? 8), (nc =? 12); simpl; tauto.
Qed.
Lemma tbx_dispatch_id : forall ns nc, tbx_mode ns nc -> tbx_dispatch ns nc = (ns, nc).
Proof.
  intros ns nc H. apply tbx_mode_cases in H. destruct H as [[-> |[-> | ->]] [-> |[-> |[-> | ->]]]]; reflexivity.
Qed.

Lemma tbx_head_slices : forall r x,
  let raw := concat (tbx_head r) ++ x in
  slice 0 4 raw = sync_bytes /\ slice 4 4 raw = be 1 (x_id r) ++ be 3 (x_count r) /\
  slice 8 4 raw = be 4 (x_secs r) /\ slice 12 4 raw = be 4 (x_chan r) /\
  slice 16 2 raw = be 2 (x_nstand r) /\ slice 18 2 raw = be 2 (x_nchan r) /\ slice 20 8 raw = be 8 (x_tag r).
Proof.
  intros r x raw. unfold raw. pose proof (tbx_head_zlen r) as HZ.
  rewrite !(slice_in_l (concat (tbx_head r)) x) by lia. unfold tbx_head.
  split; [chunk 0%nat; reflexivity|]. split; [chunk 1%nat; reflexivity|]. split; [chunk 2%nat; reflexivity|].
  split; [chunk 3%nat; reflexivity|]. split; [chunk 4%nat; reflexivity|]. split; [chunk 5%nat; reflexivity|].
  chunk 6%nat. reflexivity.
Qed.

(** The frame a user gets; the first channel only survives below 2^15. *)
Definition tframe_of (r : tbx_rec) : tframe :=
  mkT (x_id r) (x_count r) (x_secs r) (signed 16 (x_chan r)) (x_nstand r) (x_nchan r) (x_tag r) (interleave (x_samples r)).

Lemma nibbles_decode : forall s n, length s = (4 * n)%nat -> Forall (fun s => -8 <= fst s <= 7 /\ -8 <= snd s <= 7) s ->
  fill4 (map (fun s => 16 * (fst s mod 16) + snd s mod 16) s) = interleave s.
Proof.
  intros s n HL HF. rewrite <- (drx_samples_decode s n HL HF). reflexivity.
Qed.

Lemma tbx_parse_ok : forall ns nc r, tbx_mode ns nc -> tbx_ok ns nc r ->
  tbx_parse ns nc (tbx_bytes r) = tframe_of r /\ valid_sync (tbx_bytes r) = true.
Proof.
  intros ns nc r HM W. destruct W as (W1 & W2 & W3 & W4 & W5 & W6 & W7 & HL & HF).
  unfold tbx_bytes. set (x := map (fun s => 16 * (fst s mod 16) + snd s mod 16) (x_samples r)).
  destruct (tbx_head_slices r x) as (F0 & F1 & F2 & F3 & F4 & F5 & F6).
  unfold tbx_parse, valid_sync. rewrite F0, F1, F2, F3, F4, F5, F6. rewrite W5, W6.
  destruct (bitfields (x_id r) (x_count r) W1 W2) as [B1 B2]. rewrite B1, B2.
  pose proof (tbx_mode_cases ns nc HM) as HMC.
  rewrite !bswap_be_mod. change (256 ^ Z.of_nat 2) with (2 ^ 16). change (256 ^ Z.of_nat 4) with (2 ^ 32).
  change (256 ^ Z.of_nat 8) with (2 ^ 64).
  rewrite (signed_mod 64), (signed_mod 16 ns), (signed_mod 16 nc) by (change (2 ^ (64 - 1)) with (2 ^ 63); change (2 ^ (16 - 1)) with (2 ^ 15); lia).
  rewrite (Z.mod_small (x_chan r)), (Z.mod_small (x_secs r)) by lia. split; [|reflexivity].
  assert (HS : slice 28 (nc * ns * 2 * 1) (concat (tbx_head r) ++ x) = x).
  { rewrite slice_app_r by (rewrite tbx_head_zlen; lia). rewrite tbx_head_zlen. apply slice_all.
    unfold x. rewrite zlen_map. lia. }
  rewrite HS. unfold x. rewrite (nibbles_decode _ (Z.to_nat (ns * nc / 2))) by
    (try exact HF; unfold zlen in HL; destruct HMC as [[-> |[-> | ->]] [-> |[-> |[-> | ->]]]]; lia).
  unfold tframe_of. rewrite W5, W6. reflexivity.
Qed.

Definition tc_mode (st : tcache) : Z * Z := tbx_dispatch (tc_nstand st) (tc_nchan st).
Definition tc_bytes (st : tcache) : Z := tbx_size (fst (tc_mode st)) (snd (tc_mode st)).
Definition tc_coherent (st : tcache) : Prop := tc_size st = None \/ tc_size st = Some (tc_bytes st).

Lemma tc_bytes_pos : forall st, 540 <= tc_bytes st <= 8220.
Proof. intro. apply tbx_size_pos. apply tbx_dispatch_mode. Qed.
Lemma tsz_coherent : forall st, tc_coherent st ->
  match tc_size st with Some s => s | None => tc_bytes st end = tc_bytes st.
Proof. intros st [-> | ->]; reflexivity. Qed.

Lemma header_mode : forall ns nc r M c, tbx_mode ns nc -> tbx_ok ns nc r -> 28 <= M ->
  bswap 2 (le_val (slice 16 2 (ztake M (tbx_bytes r ++ c)))) = ns /\
  bswap 2 (le_val (slice 18 2 (ztake M (tbx_bytes r ++ c)))) = nc.
Proof.
  intros ns nc r M c HM W HMz. destruct W as (_ & _ & _ & _ & W5 & W6 & _).
  unfold tbx_bytes. rewrite <- app_assoc. rewrite ztake_app_ge by (rewrite tbx_head_zlen; lia).
  match goal with |- context [concat (tbx_head r) ++ ?y] =>
    destruct (tbx_head_slices r y) as (_ & _ & _ & _ & F4 & F5 & _) end.
  rewrite F4, F5, !bswap_be_mod, W5, W6. pose proof (tbx_mode_cases ns nc HM).
  change (256 ^ Z.of_nat 2) with 65536. rewrite !Z.mod_small by lia. auto.
Qed.

Lemma tbx_impl_own : forall ns nc st a c r, tbx_mode ns nc -> tc_coherent st -> tc_mode st = (ns, nc) -> tbx_ok ns nc r ->
  tbx_impl ns nc st (mkFile (a ++ tbx_bytes r ++ c) (zlen a)) =
  (mkTC (tc_nstand st) (tc_nchan st) (Some (tbx_size ns nc)),
   mkFile (a ++ tbx_bytes r ++ c) (zlen a + tbx_size ns nc), inr (Got (tframe_of r))).
Proof.
  intros ns nc st a c r HM HC HS W. unfold tbx_impl.
  assert (HB : tc_bytes st = tbx_size ns nc) by (unfold tc_bytes; rewrite HS; reflexivity).
  pose proof (tsz_coherent st HC) as HZ0. rewrite HB in HZ0. rewrite HZ0.
  pose proof (tbx_bytes_zlen ns nc r W) as HZ. pose proof (tbx_size_pos ns nc HM).
  destruct (header_mode ns nc r (tbx_size ns nc) c HM W ltac:(lia)) as [H1 H2].
  rewrite f_read_at by lia. rewrite H1, H2, !Z.eqb_refl. cbn [negb orb].
  assert (HT : ztake (tbx_size ns nc) (tbx_bytes r ++ c) = tbx_bytes r) by (rewrite <- HZ; apply ztake_app_exact).
  rewrite HT, HZ, Z.eqb_refl. cbn [negb].
  destruct (tbx_parse_ok ns nc r HM W) as [P1 P2]. rewrite P1, P2. reflexivity.
Qed.

(** The central lemma: any cache, provided a frame of the cached mode would still fit into the file. *)
Lemma read_tbx_ok : forall ns nc st a c r, tbx_mode ns nc -> tc_coherent st -> tbx_ok ns nc r ->
  tc_bytes st <= tbx_size ns nc + zlen c ->
  exists st', tc_coherent st' /\ tc_mode st' = (ns, nc) /\
  read_tbx st (mkFile (a ++ tbx_bytes r ++ c) (zlen a)) =
  (st', mkFile (a ++ tbx_bytes r ++ c) (zlen a + tbx_size ns nc), Got (tframe_of r)).
Proof.
  intros ns nc st a c r HM HC W HF. unfold read_tbx. fold (tc_mode st).
  destruct (tc_mode st) as [NS NC] eqn:EM. cbn [tbx_loop].
  assert (HB : tc_bytes st = tbx_size NS NC) by (unfold tc_bytes; rewrite EM; reflexivity).
  destruct (Z.eq_dec ns NS) as [E1|E1]; [destruct (Z.eq_dec nc NC) as [E2|E2]|].
  1: { subst NS NC. rewrite tbx_impl_own by auto. eexists. split; [|split; [|reflexivity]].
       - right. cbn [tc_size]. f_equal. unfold tc_bytes, tc_mode in *. cbn [tc_nstand tc_nchan]. rewrite EM. reflexivity.
       - exact EM. }
  all: unfold tbx_impl at 1.
  all: pose proof (tsz_coherent st HC) as HZ0; rewrite HB in HZ0, HF; rewrite HZ0.
  all: assert (HMM : tbx_mode NS NC) by (pose proof (tbx_dispatch_mode (tc_nstand st) (tc_nchan st)) as X; fold (tc_mode st) in X; rewrite EM in X; exact X).
  all: pose proof (tbx_bytes_zlen ns nc r W) as HZ; pose proof (tbx_size_pos NS NC HMM).
  all: destruct (header_mode ns nc r (tbx_size NS NC) c HM W ltac:(lia)) as [H1 H2].
  all: rewrite f_read_at by lia; rewrite H1, H2.
  all: assert (HR : zlen (ztake (tbx_size NS NC) (tbx_bytes r ++ c)) = tbx_size NS NC) by (rewrite zlen_ztake, zlen_app by lia; lia).
  all: rewrite HR, Z.eqb_refl; cbn [negb].
  all: assert (HN : negb (ns =? NS) || negb (nc =? NC) = true) by
    (destruct (Z.eqb_spec ns NS); destruct (Z.eqb_spec nc NC); cbn; auto; congruence).
  all: rewrite HN; pose proof (proj2 (tbx_mode_supported ns nc) HM) as HSup; rewrite HSup.
  all: rewrite f_rel_back by apply zlen_nonneg.
  all: rewrite tbx_impl_own; auto;
       [|left; reflexivity|unfold tc_mode; cbn [tc_nstand tc_nchan]; apply tbx_dispatch_id; auto].
  all: eexists; split; [|split; [|reflexivity]];
       [right; cbn [tc_size]; unfold tc_bytes, tc_mode; cbn [tc_nstand tc_nchan]; rewrite tbx_dispatch_id by auto; reflexivity
       |unfold tc_mode; cbn [tc_nstand tc_nchan]; apply tbx_dispatch_id; auto].
Qed.

(** ** Any bytes, any coherent cache *)
Definition tbx_header_mode (f : file) : Z * Z :=
  let h := zdrop (f_pos f) (f_data f) in (be_val (slice 16 2 h), be_val (slice 18 2 h)).

Definition tbx_outcome (st : tcache) (f : file) (st' : tcache) (f' : file) (r : rd tframe) : Prop :=
  f_data f' = f_data f /\ tc_coherent st' /\
  let '(ns, nc) := tbx_header_mode f in
  let left := zlen (f_data f) - f_pos f in
  let synced := ztake 4 (zdrop (f_pos f) (f_data f)) = sync_bytes in
  match r with
  | AtEOF => f_pos f' = Z.max (f_pos f) (zlen (f_data f)) /\
             (left < tc_bytes st \/ (tbx_mode ns nc /\ left < tbx_size ns nc))
  | BadSync loc => loc = f_pos f /\ f_pos f' = f_pos f /\ (~ tbx_mode ns nc \/ ~ synced)
  | Got d => f_pos f' = f_pos f + tbx_size ns nc /\ tbx_mode ns nc /\ synced /\
             tbx_size ns nc <= left /\ tc_mode st' = (ns, nc) /\
             t_nstand d = ns /\ t_nchan d = nc
  end.

Lemma slice_prefix : forall i n M l, 0 <= i -> 0 <= n -> i + n <= M -> M <= zlen l -> slice i n (ztake M l) = slice i n l.
Proof.
  intros i n M l Hi Hn H HL. rewrite <- (ztake_zdrop M l) at 2. symmetry. apply slice_in_l; auto.
  rewrite zlen_ztake by lia. lia.
Qed.

Lemma f_read_far : forall n f, 0 <= n -> 0 <= f_pos f ->
  f_read n f = (mkFile (f_data f) (f_pos f + Z.min n (zlen (zdrop (f_pos f) (f_data f)))), ztake n (zdrop (f_pos f) (f_data f))).
Proof.
  intros n f Hn Hp. unfold f_read. destruct (Z.ltb_spec n 0); [lia|]. rewrite zlen_ztake by lia. reflexivity.
Qed.

Lemma tbx_impl_step : forall NS NC st f, tbx_mode NS NC -> tc_coherent st -> tc_mode st = (NS, NC) ->
  0 <= f_pos f -> bytes_ok (f_data f) ->
  match tbx_impl NS NC st f with
  | (st1, f1, inr r) => tbx_outcome st f st1 f1 r
  | (st1, f1, inl m) => f1 = f /\ m = tbx_header_mode f /\ tbx_mode (fst m) (snd m) /\ m <> (NS, NC) /\
                        st1 = mkTC (fst m) (snd m) None
  end.
Proof.
  intros NS NC st f HM HC HS Hp HB. unfold tbx_impl.
  assert (HBy : tc_bytes st = tbx_size NS NC) by (unfold tc_bytes; rewrite HS; reflexivity).
  pose proof (tsz_coherent st HC) as HZ0. rewrite HBy in HZ0. rewrite HZ0.
  pose proof (tbx_size_pos NS NC HM) as HP. rewrite f_read_far by lia.
  remember (zdrop (f_pos f) (f_data f)) as rest eqn:Erest.
  assert (HR : zlen rest = Z.max 0 (zlen (f_data f) - f_pos f)) by (rewrite Erest; apply zlen_zdrop; lia).
  rewrite zlen_ztake by lia.
  destruct (Z.eqb_spec (Z.min (tbx_size NS NC) (zlen rest)) (tbx_size NS NC)) as [E|E]; cbn [negb].
  2: { unfold tbx_outcome, tbx_header_mode. rewrite <- Erest. cbn [f_data f_pos]. split; [auto|]. split.
       - right. cbn [tc_size]. f_equal. unfold tc_bytes, tc_mode in *. cbn [tc_nstand tc_nchan]. rewrite HS. reflexivity.
       - split; [lia|left; lia]. }
  assert (HBr : bytes_ok rest) by (rewrite Erest; apply bytes_ok_zdrop; auto).
  rewrite !slice_prefix by lia.
  assert (HH : forall i, 0 <= i -> i + 2 <= 28 -> bswap 2 (le_val (slice i 2 rest)) = be_val (slice i 2 rest)).
  { intros i Hi1 Hi2. apply bswap_load; [apply slice_ok; auto|]. rewrite slice_zlen by lia. reflexivity. }
  rewrite !HH by lia.
  assert (HHM : tbx_header_mode f = (be_val (slice 16 2 rest), be_val (slice 18 2 rest))) by (unfold tbx_header_mode; rewrite <- Erest; reflexivity).
  set (ns := be_val (slice 16 2 rest)) in *. set (nc := be_val (slice 18 2 rest)) in *.
  rewrite E, f_rel_back by auto.
  destruct f as [d p]. cbn [f_data f_pos] in *.
  destruct (Z.eqb_spec ns NS) as [E1|E1]; destruct (Z.eqb_spec nc NC) as [E2|E2]; cbn [negb orb].
  1: { pose proof (sync_iff (ztake (tbx_size NS NC) rest) ltac:(apply bytes_ok_ztake; auto) ltac:(rewrite zlen_ztake by lia; lia)) as HSy.
    rewrite ztake_ztake, Z.min_l in HSy by lia.
    assert (HC1 : tc_coherent (mkTC (tc_nstand st) (tc_nchan st) (Some (tbx_size NS NC)))).
    { right. cbn [tc_size]. f_equal. unfold tc_bytes, tc_mode in *. cbn [tc_nstand tc_nchan]. rewrite HS. reflexivity. }
    destruct (valid_sync (ztake (tbx_size NS NC) rest)) eqn:EV; cbn [negb]; unfold tbx_outcome; rewrite HHM; cbn [f_data f_pos]; rewrite <- Erest;
      (split; [auto|]); (split; [auto|]).
    - rewrite E1, E2. split; [lia|]. split; [auto|]. split; [apply HSy; auto|]. split; [lia|].
      split; [unfold tc_mode in *; cbn [tc_nstand tc_nchan]; auto|].
      unfold tbx_parse. cbn [t_nstand t_nchan]. rewrite !slice_prefix by lia. rewrite !HH by lia.
      fold ns nc. rewrite E1, E2. pose proof (tbx_mode_cases NS NC HM) as HMC.
      rewrite <- (Z.mod_small NS (2 ^ 16)) at 1 by lia. rewrite <- (Z.mod_small NC (2 ^ 16)) at 1 by lia.
      rewrite !signed_mod by (change (2 ^ (16 - 1)) with 32768; lia). auto.
    - split; [reflexivity|]. split; [auto|]. right. intro X. apply HSy in X. discriminate. }
  all: destruct (tbx_supported ns nc) eqn:ES;
    [split; [reflexivity|]; split; [auto|]; split; [apply tbx_mode_supported; auto|]; split; [congruence|reflexivity]|].
  all: unfold tbx_outcome; rewrite HHM; cbn [f_data f_pos]; split; [auto|]; split; [left; reflexivity|];
    split; [reflexivity|]; split; [auto|]; left; intro X; apply tbx_mode_supported in X; congruence.
Qed.

Lemma tbx_outcome_weaken : forall st f st1 f1 r ns nc, tbx_header_mode f = (ns, nc) -> tbx_mode ns nc ->
  tbx_outcome (mkTC ns nc None) f st1 f1 r -> tbx_outcome st f st1 f1 r.
Proof.
  intros st f st1 f1 r ns nc HH HM H. unfold tbx_outcome in *. rewrite HH in *. destruct H as (H1 & H2 & H3).
  split; [auto|]. split; [auto|]. destruct r as [d| |loc]; auto. destruct H3 as (H3 & H4). split; [auto|]. right. split; [auto|].
  destruct H4 as [H4|[_ H4]]; auto. unfold tc_bytes, tc_mode in H4. cbn [tc_nstand tc_nchan] in H4.
  rewrite tbx_dispatch_id in H4 by auto. exact H4.
Qed.

Lemma read_tbx_total : forall st f st' f' r, tc_coherent st -> 0 <= f_pos f -> bytes_ok (f_data f) ->
  read_tbx st f = (st', f', r) -> tbx_outcome st f st' f' r.
Proof.
  intros st f st' f' r HC Hp HB H. unfold read_tbx in H. fold (tc_mode st) in H.
  destruct (tc_mode st) as [NS NC] eqn:EM. cbn [tbx_loop] in H.
  assert (HMM : tbx_mode NS NC) by (pose proof (tbx_dispatch_mode (tc_nstand st) (tc_nchan st)) as X; fold (tc_mode st) in X; rewrite EM in X; exact X).
  pose proof (tbx_impl_step NS NC st f HMM HC EM Hp HB) as HI.
  destruct (tbx_impl NS NC st f) as [[st1 f1] [[ns nc]|r1]]; [|inversion H; subst; auto].
  destruct HI as (-> & HH & HM & HN & ->). cbn [fst snd] in *.
  pose proof (tbx_impl_step ns nc (mkTC ns nc None) f HM ltac:(left; reflexivity) ltac:(unfold tc_mode; cbn [tc_nstand tc_nchan]; apply tbx_dispatch_id; auto) Hp HB) as HJ.
  destruct (tbx_impl ns nc (mkTC ns nc None) f) as [[st2 f2] [[ns2 nc2]|r2]].
  - exfalso. destruct HJ as (_ & HH2 & _ & HN2 & _). congruence.
  - inversion H; subst st2 f2 r2. eapply tbx_outcome_weaken; eauto.
Qed.

(** ** Streams *)
Lemma concat_map_len : forall A (enc : A -> list Z) size (P : A -> Prop) rs, (forall r, P r -> zlen (enc r) = size) ->
  Forall P rs -> zlen (flat_map enc rs) = size * zlen rs.
Proof.
  intros A enc size P rs H HF. induction HF as [|r rs Hr HF IH]; [cbn; lia|].
  cbn [flat_map]. rewrite zlen_app, IH, H, zlen_cons by auto. lia.
Qed.

Lemma cor_sync_prefix : forall r x, ztake 4 (cor_bytes r ++ x) = sync_bytes.
Proof.
  intros. unfold cor_bytes, cor_head. cbn [concat]. rewrite <- !app_assoc. rewrite ztake_app_le by reflexivity. reflexivity.
Qed.

(** The first frame decides the mode; all frames and then EOF follow. *)
Lemma cor_stream_own : forall n rs a t k, In n cor_modes -> Forall (fun r => cor_ok n r /\ unambiguous r) rs -> zlen t < cor_size n ->
  reads read_cor (length rs + S k) (mkCC n (Some (cor_size n))) (mkFile (a ++ flat_map cor_bytes rs ++ t) (zlen a)) =
  (mkCC n (Some (cor_size n)), mkFile (a ++ flat_map cor_bytes rs ++ t) (zlen a + zlen (flat_map cor_bytes rs ++ t)),
   map (cframe_of n) rs, Some EOFError).
Proof.
  intros n rs a t k Hm HF Ht. revert a.
  assert (HCC : cc_coherent (mkCC n (Some (cor_size n)))) by (split; [exact Hm|right; reflexivity]).
  induction HF as [|r rs [Hr Hu] HF IH]; intro a.
  - cbn [length plus flat_map app reads]. unfold read_cor. cbn [cc_nchan]. rewrite dispatch_mode by auto.
    cbn [cor_loop]. unfold cor_impl. cbn [cc_size cc_nchan]. pose proof (cor_size_pos n Hm).
    rewrite f_read_at by lia. rewrite ztake_all by lia. destruct (Z.eqb_spec (zlen t) (cor_size n)); [lia|]. reflexivity.
  - cbn [length plus flat_map reads]. rewrite <- app_assoc.
    rewrite (read_cor_ok n) by (auto; left; reflexivity).
    pose proof (cor_bytes_zlen n r Hr) as HZ.
    specialize (IH (a ++ cor_bytes r)). rewrite <- !app_assoc, zlen_app, HZ in IH. rewrite IH.
    cbn [map]. do 4 f_equal. rewrite !zlen_app. lia.
Qed.

Lemma cor_stream : forall n st rs a t k, In n cor_modes -> cc_coherent st ->
  Forall (fun r => cor_ok n r /\ unambiguous r) rs -> zlen t < cor_size n -> rs <> [] ->
  cc_nchan st = n \/ (n < cc_nchan st /\ cor_size (cc_nchan st) <= zlen rs * cor_size n) ->
  reads read_cor (length rs + S k) st (mkFile (a ++ flat_map cor_bytes rs ++ t) (zlen a)) =
  (mkCC n (Some (cor_size n)), mkFile (a ++ flat_map cor_bytes rs ++ t) (zlen a + zlen (flat_map cor_bytes rs ++ t)),
   map (cframe_of n) rs, Some EOFError).
Proof.
  intros n st rs a t k Hm HC HF Ht Hne HN. destruct rs as [|r rs]; [congruence|]. clear Hne.
  inversion HF as [|? ? [Hr Hu] HF']; subst.
  pose proof (cor_bytes_zlen n r Hr) as HZ. pose proof (cor_size_pos n Hm) as Hpos.
  cbn [length plus flat_map reads]. rewrite <- app_assoc. rewrite (read_cor_ok n); auto.
  - pose proof (cor_stream_own n rs (a ++ cor_bytes r) t k Hm HF' Ht) as IH.
    rewrite <- !app_assoc, zlen_app, HZ in IH. rewrite IH.
    cbn [map]. do 4 f_equal. rewrite !zlen_app. lia.
  - destruct HN as [HN|[Hlt HN]]; [left; auto|right]. split; [auto|].
    rewrite zlen_cons in HN. pose proof (zlen_nonneg rs). pose proof (zlen_nonneg t).
    rewrite zlen_app.
    rewrite (concat_map_len _ cor_bytes (cor_size n) (fun r => cor_ok n r /\ unambiguous r)) by
      (auto; intros r0 [X _]; apply cor_bytes_zlen; auto).
    split; [|lia].
    destruct rs as [|r2 rs].
    + exfalso. change (zlen (@nil cor_rec)) with 0 in HN. unfold cor_size in HN.
      apply mode_cases in Hm. destruct HC as [HC _]. apply mode_cases in HC. lia.
    + cbn [flat_map]. rewrite <- app_assoc. apply cor_sync_prefix.
Qed.

(** TBX: every stream of one supported mode, from any cache, as long as a frame
    of the cached mode would fit into the whole stream. *)
Lemma tbx_stream_own : forall ns nc rs st a t k, tbx_mode ns nc -> tc_coherent st -> tc_mode st = (ns, nc) ->
  Forall (tbx_ok ns nc) rs -> zlen t < tbx_size ns nc ->
  exists st', reads read_tbx (length rs + S k) st (mkFile (a ++ flat_map tbx_bytes rs ++ t) (zlen a)) =
  (st', mkFile (a ++ flat_map tbx_bytes rs ++ t) (zlen a + zlen (flat_map tbx_bytes rs ++ t)),
   map tframe_of rs, Some EOFError).
Proof.
  intros ns nc rs st a t k HM HC HS HF Ht. revert a st HC HS.
  induction HF as [|r rs Hr HF IH]; intros a st HC HS.
  - cbn [length plus flat_map app reads]. unfold read_tbx. fold (tc_mode st). rewrite HS. cbn [tbx_loop]. unfold tbx_impl.
    assert (HBy : tc_bytes st = tbx_size ns nc) by (unfold tc_bytes; rewrite HS; reflexivity).
    pose proof (tsz_coherent st HC) as HZ0. rewrite HBy in HZ0. rewrite HZ0. pose proof (tbx_size_pos ns nc HM).
    rewrite f_read_at by lia. rewrite ztake_all by lia. destruct (Z.eqb_spec (zlen t) (tbx_size ns nc)); [lia|].
    cbn [negb]. eexists. reflexivity.
  - cbn [length plus flat_map reads]. rewrite <- app_assoc.
    destruct (read_tbx_ok ns nc st a (flat_map tbx_bytes rs ++ t) r HM HC Hr) as (st1 & HC1 & HS1 & HR).
    { unfold tc_bytes. rewrite HS. cbn [fst snd]. pose proof (zlen_nonneg (flat_map tbx_bytes rs ++ t)). lia. }
    rewrite HR. pose proof (tbx_bytes_zlen ns nc r Hr) as HZ.
    destruct (IH (a ++ tbx_bytes r) st1 HC1 HS1) as (st2 & H2). rewrite <- !app_assoc, zlen_app, HZ in H2. rewrite H2.
    exists st2. cbn [map]. do 4 f_equal. rewrite !zlen_app. lia.
Qed.

Lemma tbx_stream : forall ns nc rs st a t k, tbx_mode ns nc -> tc_coherent st ->
  Forall (tbx_ok ns nc) rs -> zlen t < tbx_size ns nc -> rs <> [] ->
  tc_bytes st <= zlen rs * tbx_size ns nc + zlen t ->
  exists st', reads read_tbx (length rs + S k) st (mkFile (a ++ flat_map tbx_bytes rs ++ t) (zlen a)) =
  (st', mkFile (a ++ flat_map tbx_bytes rs ++ t) (zlen a + zlen (flat_map tbx_bytes rs ++ t)),
   map tframe_of rs, Some EOFError).
Proof.
  intros ns nc rs st a t k HM HC HF Ht Hne HB. destruct rs as [|r rs]; [congruence|]. clear Hne.
  inversion HF as [|? ? Hr HF']; subst. pose proof (tbx_bytes_zlen ns nc r Hr) as HZ.
  cbn [length plus flat_map reads]. rewrite <- app_assoc.
  destruct (read_tbx_ok ns nc st a (flat_map tbx_bytes rs ++ t) r HM HC Hr) as (st1 & HC1 & HS1 & HR).
  { rewrite zlen_app, (concat_map_len _ tbx_bytes (tbx_size ns nc) (tbx_ok ns nc)) by (auto; apply tbx_bytes_zlen).
    rewrite zlen_cons in HB. lia. }
  rewrite HR.
  destruct (tbx_stream_own ns nc rs st1 (a ++ tbx_bytes r) t k HM HC1 HS1 HF' Ht) as (st2 & H2).
  rewrite <- !app_assoc, zlen_app, HZ in H2. rewrite H2.
  exists st2. cbn [map]. do 4 f_equal. rewrite !zlen_app. lia.
Qed.
