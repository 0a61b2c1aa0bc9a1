(** The parts of the correlator interface around the kernels. *)
From Coq Require Import Ascii String List ZArith QArith Qcanon Qround Bool Lia Permutation.
From Verif Require Import LibList M_Py M_Base P_Base M_Corr M_CorrPy S_Corr P_Corr P_CorrSpec P_CorrPsd P_CorrPick P_CorrF P_CorrX.
Import ListNotations.
Open Scope Z_scope.

Lemma collect_inv : forall A B (dA : A) (dB : B) (f : A -> res B) l r, collect (map f l) = Ok r ->
  zlen r = zlen l /\ forall i, 0 <= i < zlen l -> f (znth dA i l) = Ok (znth dB i r).
Proof.
  intros A B dA dB f l. induction l as [|x l IH]; intros r H.
  - cbn in H. inversion H. split; [reflexivity|]. intros i Hi. unfold zlen in Hi. cbn in Hi. lia.
  - cbn [map collect] in H. destruct (f x) as [y|] eqn:E; [|discriminate]. cbn [bind] in H.
    destruct (collect (map f l)) as [r'|]; [|discriminate]. cbn [bind] in H. inversion H; subst. destruct (IH r' eq_refl) as [H1 H2].
    split; [rewrite !zlen_cons; lia|]. intros i Hi. rewrite zlen_cons in Hi. destruct (Z.eq_dec i 0) as [->|Hi0]; [exact E|].
    change (x :: l) with ([x] ++ l). change (y :: r') with ([y] ++ r'). rewrite !znth_app_r by (unfold zlen; cbn; lia). apply H2. unfold zlen in *. cbn [length] in *. lia.
Qed.

(** ** The pairs *)
Lemma pair_list_pairs : forall (auto : bool) n, pair_list auto n = pairs (if auto then 0 else 1) n.
Proof.
  intros auto n. unfold pair_list, pairs. rewrite upto_range. induction (range 0 n) as [|i l IH]; [reflexivity|]. cbn [flat_map]. rewrite IH, upto_range.
  do 3 f_equal. destruct auto; lia.
Qed.
Lemma mapper_all : forall n, mapper n = pairs 0 n.
Proof. intro n. rewrite mapper_pairs, (pair_list_pairs true). reflexivity. Qed.
Lemma filter_app' : forall A (p : A -> bool) a b, filter p (a ++ b) = filter p a ++ filter p b.
Proof. induction a as [|x a IH]; intro b; [reflexivity|]. cbn [app filter]. rewrite IH. destruct (p x); reflexivity. Qed.
Lemma filter_all : forall A (p : A -> bool) l, (forall x, In x l -> p x = true) -> filter p l = l.
Proof. induction l as [|x l IH]; intro H; [reflexivity|]. cbn [filter]. rewrite (H x (or_introl eq_refl)), IH; [reflexivity|]. intros y Hy. apply H. right. exact Hy. Qed.
Lemma pairs_off : forall n, filter (fun q => negb (fst q =? snd q)) (pairs 0 n) = pairs 1 n.
Proof.
  intro n. unfold pairs. assert (H : forall i, In i (range 0 n) -> i < n) by (intros i Hi; apply range_in in Hi; lia). revert H.
  induction (range 0 n) as [|i l IH]; intro H; [reflexivity|]. cbn [flat_map]. rewrite filter_app', IH by (intros j Hj; apply H; right; exact Hj). f_equal.
  rewrite filter_map. cbn [fst snd]. rewrite Z.add_0_r. rewrite range_cons by (apply H; left; reflexivity). cbn [filter]. rewrite Z.eqb_refl. cbn [negb]. f_equal.
  apply filter_all. intros j Hj. apply range_in in Hj. destruct (Z.eqb_spec i j); [lia|reflexivity].
Qed.
Lemma positions_map : forall A B (f : A -> B) p l, positions p (map f l) = positions (fun x => p (f x)) l.
Proof.
  intros A B f p l. unfold positions. rewrite zlen_map. generalize (upto 0 (zlen l)). induction l as [|x l IH]; intros u; [destruct u; reflexivity|].
  destruct u as [|k u]; [reflexivity|]. cbn [map combine filter snd]. destruct (p (f x)); cbn [map]; rewrite IH; reflexivity.
Qed.
Lemma znth_self : forall A (d : A) (l : list A), map (fun i => znth d i l) (range 0 (zlen l)) = l.
Proof.
  intros A d l. assert (G := positions_pick A d (fun _ => true) l). rewrite filter_all in G by reflexivity. rewrite <- G at 2. f_equal. unfold positions. rewrite upto_range.
  rewrite filter_all by reflexivity. assert (H : length (range 0 (zlen l)) = length l) by (pose proof (range_len 0 (zlen l)); pose proof (zlen_nonneg l); unfold zlen in *; lia).
  revert H. generalize (range 0 (zlen l)). induction l as [|x l IH]; intros u H; destruct u; try discriminate; [reflexivity|]. cbn [combine map fst]. f_equal. apply IH.
  - rewrite positions_pick. apply filter_all. reflexivity.
  - cbn in H. lia.
Qed.

Lemma kept_pairs : forall ants1 ants2 (auto : bool) keep (d : ant), zlen ants2 = zlen ants1 ->
  (auto = false -> forall i j, 0 <= i < zlen ants1 -> 0 <= j < zlen ants1 -> (a_stand (znth d i ants1) = a_stand (znth d j ants2) <-> i = j)) ->
  kept ants1 ants2 auto = Ok keep -> map (fun b => znth (0, 0) b (pairs 0 (zlen ants1))) keep = pairs (if auto then 0 else 1) (zlen ants1) /\
  forall b, In b keep -> 0 <= b < zlen (pairs 0 (zlen ants1)).
Proof.
  intros ants1 ants2 auto keep d HL HS H. unfold kept in H. rewrite (get_baselines_ok d) in H by lia. cbn [bind] in H. inversion H as [E]. clear H E.
  destruct auto.
  - rewrite zlen_map. split; [apply znth_self|]. intros b Hb. apply range_in in Hb. exact Hb.
  - specialize (HS eq_refl). set (full := map (fun p => (znth d (fst p) ants1, znth d (snd p) ants2)) (pairs 0 (zlen ants1))).
    assert (E : map fst (filter (fun q : Z * (ant * ant) => negb (a_stand (fst (snd q)) =? a_stand (snd (snd q)))) (combine (range 0 (zlen full)) full)) =
                positions (fun q => negb (fst q =? snd q)) (pairs 0 (zlen ants1))).
    { transitivity (positions (fun q : ant * ant => negb (a_stand (fst q) =? a_stand (snd q))) full); [unfold positions; rewrite upto_range; reflexivity|].
      unfold full. rewrite positions_map. cbn [fst snd]. unfold positions. f_equal. apply filter_ext_in'. intros [k [i j]] Hk. cbn [snd fst].
      apply in_combine_r in Hk. apply (pairs_in true) in Hk. specialize (HS i j ltac:(lia) ltac:(lia)).
      destruct (Z.eqb_spec (a_stand (znth d i ants1)) (a_stand (znth d j ants2))), (Z.eqb_spec i j); try reflexivity; intuition lia. }
    rewrite E. rewrite positions_pick, pairs_off. split; [reflexivity|]. intros b Hb. apply positions_in in Hb. exact Hb.
Qed.

(** ** Delays *)
Lemma qmin_least : forall l x, least (x :: l) (qmin x l).
Proof.
  induction l as [|y l IH]; intro x; cbn [qmin].
  - split; [left; reflexivity|]. intros z [<- |[]]. apply Qcle_refl.
  - destruct (Qle_bool (this x) (this y)) eqn:E.
    + destruct (IH x) as [H1 H2]. split; [destruct H1 as [H1|H1]; [left; exact H1|right; right; exact H1]|].
      apply Qle_bool_iff in E. intros z [<- |[<- |Hz]]; [apply H2; left; reflexivity| |apply H2; right; exact Hz].
      apply (Qcle_trans _ x); [apply H2; left; reflexivity|exact E].
    + destruct (IH y) as [H1 H2]. split; [destruct H1 as [H1|H1]; right; [left; exact H1|right; exact H1]|].
      assert (Hyx : (y <= x)%Qc) by (unfold Qcle; apply Qlt_le_weak; apply Qnot_le_lt; intro H; apply Qle_bool_iff in H; congruence).
      intros z [<- |[<- |Hz]]; [|apply H2; left; reflexivity|apply H2; right; exact Hz].
      apply (Qcle_trans _ y); [apply H2; left; reflexivity|exact Hyx].
Qed.
Lemma least_app : forall a b m1 m2, least a m1 -> least b m2 -> least (a ++ b) (if Qle_bool (this m2) (this m1) then m2 else m1).
Proof.
  intros a b m1 m2 [A1 A2] [B1 B2]. destruct (Qle_bool (this m2) (this m1)) eqn:E.
  - apply Qle_bool_iff in E. split; [apply in_or_app; right; exact B1|]. intros x Hx. apply in_app_or in Hx. destruct Hx as [Hx|Hx]; [|apply B2; exact Hx].
    apply (Qcle_trans _ m1); [exact E|apply A2; exact Hx].
  - assert (H : (m1 <= m2)%Qc) by (unfold Qcle; apply Qlt_le_weak; apply Qnot_le_lt; intro H; apply Qle_bool_iff in H; congruence).
    split; [apply in_or_app; left; exact A1|]. intros x Hx. apply in_app_or in Hx. destruct Hx as [Hx|Hx]; [apply A2; exact Hx|].
    apply (Qcle_trans _ m2); [exact H|apply B2; exact Hx].
Qed.
Lemma nth_error_znth : forall A (d : A) l i, 0 <= i < zlen l -> nth_error l (Z.to_nat i) = Some (znth d i l).
Proof. intros A d l i Hi. unfold znth. destruct (Z.ltb_spec i 0); [lia|]. apply nth_error_nth'. unfold zlen in Hi. lia. Qed.
Lemma ztake_of : forall A (d : A) l r n, 0 <= n -> zlen r = n -> (forall i, 0 <= i < n -> py_index l i = Ok (znth d i r)) -> n <= zlen l /\ r = ztake n l.
Proof.
  intros A d l r n Hn Hr H.
  assert (Hl : n <= zlen l).
  { destruct (Z.le_gt_cases n (zlen l)) as [G|G]; [exact G|]. pose proof (zlen_nonneg l). specialize (H (zlen l) ltac:(lia)). rewrite py_index_high in H by lia. discriminate. }
  split; [exact Hl|]. apply (znth_ext d).
  - rewrite zlen_ztake by lia. lia.
  - intros i Hi. rewrite znth_ztake by lia. specialize (H i ltac:(lia)). apply (P_CorrPick.py_index_ok A d) in H; [|lia]. destruct H as [_ H]. exact H.
Qed.
Lemma delays_of_ok : forall freq ants1 ants2 d1 d2 (da : ant), delays_of freq ants1 ants2 = Ok (d1, d2) -> 
  let fr := znth 0%Qc (zlen freq / 2) freq in
  0 < zlen ants1 <= zlen ants2 /\ exists m, least (map (fun a => a_delay a fr) (ants1 ++ ztake (zlen ants1) ants2)) m /\
  (forall i j, 0 <= i < zlen ants1 -> d1 i j = (a_delay (znth da i ants1) (znth 0%Qc j freq) - m)%Qc) /\
  (forall i j, 0 <= i < zlen ants1 -> d2 i j = (a_delay (znth da i ants2) (znth 0%Qc j freq) - m)%Qc).
Proof.
  intros freq ants1 ants2 d1 d2 da H fr. unfold delays_of in H.
  destruct (collect (map (py_index ants2) (range 0 (zlen ants1)))) as [b2|] eqn:Ec; [|discriminate]. cbn [bind] in H.
  destruct (collect_inv _ _ 0 da _ _ _ Ec) as [C1 C2]. pose proof (zlen_nonneg ants1) as Hz. rewrite range_len in C1, C2.
  destruct (ztake_of _ da ants2 b2 (zlen ants1)) as [Hle Eb]; [lia|lia| |].
  { intros i Hi. rewrite <- C2 by lia. rewrite znth_range' by lia. reflexivity. }
  fold fr in H. destruct (map (fun a => a_delay a fr) ants1) as [|r1 l1] eqn:E1; [discriminate|]. destruct (map (fun a => a_delay a fr) b2) as [|r2 l2] eqn:E2; [discriminate|].
  assert (Hpos : 0 < zlen ants1) by (rewrite <- (zlen_map _ _ (fun a => a_delay a fr)), E1, zlen_cons; pose proof (zlen_nonneg l1); lia).
  split; [lia|].
  exists (if Qle_bool (this (qmin r2 l2)) (this (qmin r1 l1)) then qmin r2 l2 else qmin r1 l1).
  split. { rewrite map_app, <- Eb, E1, E2. apply least_app; apply qmin_least. }
  cbv zeta in H. injection H as <- <-. split.
  - intros i j Hi. rewrite (nth_error_znth _ da) by exact Hi. reflexivity.
  - intros i j Hi. rewrite (nth_error_znth _ da) by lia. rewrite Eb, znth_ztake by lia. reflexivity.
Qed.

(** The largest lag. *)
Lemma fifo_max_greatest : forall n f, 0 < n -> (forall i, 0 <= i < n -> 0 <= f i) -> greatest (map f (range 0 n)) (fifo_max n f).
Proof.
  intros n f Hn Hf. unfold fifo_max.
  cut (forall k, 0 <= k <= n -> let m := loop 0 k (fun i m => if m <? f i then f i else m) 0 in
    (k = 0 /\ m = 0 \/ exists i, 0 <= i < k /\ m = f i) /\ forall i, 0 <= i < k -> f i <= m).
  { intro G. destruct (G n ltac:(lia)) as [[[? _]|(i & Hi & E)] B]; [lia|]. cbv zeta in *. split.
    - rewrite E. apply in_map. apply range_in. exact Hi.
    - intros x Hx. apply in_map_iff in Hx. destruct Hx as (j & <- & Hj). apply B. apply range_in in Hj. exact Hj. }
  intros k Hk. cbv zeta.
  apply (loop_ind _ (fun k m => k <= n -> (k = 0 /\ m = 0 \/ exists i, 0 <= i < k /\ m = f i) /\ forall i, 0 <= i < k -> f i <= m)); [lia| | |lia].
  - intros _. split; [left; lia|lia].
  - intros j m Hj IH Hjn. destruct (IH ltac:(lia)) as [I1 I2]. specialize (Hf j ltac:(lia)) as Hfj. split.
    + right. destruct (Z.ltb_spec m (f j)); [exists j; lia|]. destruct I1 as [[? ->]|(i & Hi & ->)]; [exists j; lia|exists i; lia].
    + intros i Hi. destruct (Z.eq_dec i j) as [-> | Hij]; [destruct (Z.ltb_spec m (f j)); lia|]. specialize (I2 i ltac:(lia)). destruct (Z.ltb_spec m (f j)); lia.
Qed.

Lemma lround_nearest : forall x, (0 <= x)%Qc -> lround (this x) = nearest x /\ 0 <= nearest x.
Proof.
  intros x Hx. unfold lround, nearest. unfold Qcle in Hx. change (this 0%Qc) with 0%Q in Hx. rewrite (proj2 (Qle_bool_iff _ _) Hx). split; [reflexivity|].
  change 0 with (Qfloor 0). apply Qfloor_resp_le. apply (Qle_trans _ (0 + (1 # 2))); [discriminate|]. apply Qplus_le_compat; [exact Hx|apply Qle_refl].
Qed.

Section Delays.
Context (E : Qc -> C) (nrm rate f0 : Qc) (cplx : bool) (LFFT : Z).
Hypothesis HL : 0 < LFFT.
Hypothesis Hrate : (0 < rate)%Qc.
Let freq := frequencies cplx LFFT rate f0.
Let L := if cplx then LFFT else 2 * LFFT.
Let fr := znth 0%Qc (LFFT / 2) freq.

Lemma rate_nz : rate <> 0%Qc.
Proof. intro H. rewrite H in Hrate. exact (Qclt_not_eq _ _ Hrate eq_refl). Qed.
Lemma fifo_lag : forall (delay : Z -> Z -> Qc) i (tau : Qc -> Qc), (forall j, delay i j = tau (znth 0%Qc j freq)) -> (0 <= tau fr)%Qc ->
  fifo_of LFFT rate delay i = lag rate fr tau /\ 0 <= lag rate fr tau.
Proof.
  intros delay i tau Hd H0. unfold fifo_of, lag. rewrite Z.quot_div_nonneg by lia. rewrite Hd. fold fr. apply lround_nearest.
  replace 0%Qc with (0 * rate)%Qc by ring. apply Qcmult_le_compat_r; [exact H0|apply Qclt_le_weak; exact Hrate].
Qed.
Lemma rot_turn : forall (delay : Z -> Z -> Qc) i (tau : Qc -> Qc) k, (forall j, delay i j = tau (znth 0%Qc j freq)) -> (0 <= tau fr)%Qc -> 0 <= k < LFFT ->
  rotator E nrm LFFT rate (if cplx then Z.quot LFFT 2 else 0) (fun j => znth 0%Qc j freq) delay i k =
  turn E nrm L rate fr (znth 0%Qc k freq) (source LFFT cplx k) tau.
Proof.
  intros delay i tau k Hd H0 Hk. unfold rotator, turn. destruct (fifo_lag delay i tau Hd H0) as [EL _].
  assert (Earg : (znth 0 k freq * frac_of LFFT rate delay i k + znth 0 (if cplx then Z.quot LFFT 2 else 0%Z) freq / rate * qz (fifo_of LFFT rate delay i))%Qc =
    (znth 0 k freq * tau (znth 0 k freq) - bin_freq L rate (source LFFT cplx k) * (num (lag rate fr tau) / rate))%Qc).
  { unfold frac_of. rewrite EL. change qz with num. rewrite Hd. pose proof rate_nz as Hz.
    assert (Eref : (znth 0 k freq - znth 0 (if cplx then Z.quot LFFT 2 else 0%Z) freq = bin_freq L rate (source LFFT cplx k))%Qc).
    { unfold freq. rewrite Z.quot_div_nonneg by lia. pose proof (Z.div_mod LFFT 2 ltac:(lia)). pose proof (Z.mod_pos_bound LFFT 2 ltac:(lia)). pose proof (Z.div_pos LFFT 2 ltac:(lia) ltac:(lia)).
      unfold L, source. destruct cplx.
      - rewrite !frequencies_at by (assumption || lia). replace (shifted_bin LFFT (LFFT / 2)) with 0 by (unfold shifted_bin; apply (Z.mod_unique_pos _ _ 1); lia).
        assert (Z0 : bin_freq LFFT rate 0 = 0%Qc) by (unfold bin_freq; destruct (Z.ltb_spec (2 * 0) LFFT); [|lia]; change (num 0) with 0%Qc; unfold Qcdiv; ring).
        rewrite Z0. ring.
      - rewrite !frequencies_at by (assumption || lia).
        assert (Z0 : bin_freq (2 * LFFT) rate 0 = 0%Qc) by (unfold bin_freq; destruct (Z.ltb_spec (2 * 0) (2 * LFFT)); [|lia]; change (num 0) with 0%Qc; unfold Qcdiv; ring).
        rewrite Z0. ring. }
    rewrite <- Eref. field. exact Hz. }
  rewrite Earg. generalize (E (znth 0 k freq * tau (znth 0 k freq) - bin_freq L rate (source LFFT cplx k) * (num (lag rate fr tau) / rate))%Qc).
  intros [a b]. unfold cscale, c_times. cbn [fst snd]. f_equal; ring.
Qed.
End Delays.

(** What an F engine that answers has done. *)
Lemma fengine_ok : forall F pw E norm n rows nDelay delay freq cplx LFFT ov window pfb rate clip junk order nFFT e,
  fengine F pw E norm n rows nDelay delay freq cplx LFFT ov window pfb rate clip junk order = Some (Ok (nFFT, e)) ->
  zlen rows = nDelay /\ count_ffts n (fifo_max (zlen rows) (fifo_of LFFT rate delay)) (fft_len cplx LFFT) ov = Some nFFT /\ 0 <= nFFT /\
  e = compute_fengine (F (negb cplx) LFFT) (fft_len cplx LFFT) (taps_of pfb) clip (weights_of pw pfb (fft_len cplx LFFT) window) n nFFT LFFT ov cplx
        (flat n rows junk) (fifo_of LFFT rate delay) (rotator E (norm (fft_len cplx LFFT)) LFFT rate (if cplx then Z.quot LFFT 2 else 0) (fun j => znth 0%Qc j freq) delay) order.
Proof.
  intros F pw E norm n rows nDelay delay freq cplx LFFT ov window pfb rate clip junk order nFFT e H. unfold fengine in H.
  destruct (Z.eqb_spec (zlen rows) nDelay) as [Hz|]; [|discriminate]. cbn [negb] in H. cbv zeta in H.
  destruct (count_ffts _ _ _ _) as [c|] eqn:Ec; [|discriminate]. destruct (Z.ltb_spec c 0); [discriminate|].
  assert (c = nFFT) by (apply (f_equal (fun o => match o with Some (Ok (x, _)) => x | _ => 0 end)) in H; exact H). subst c.
  split; [exact Hz|]. split; [reflexivity|]. split; [assumption|].
  apply (f_equal (fun o => match o with Some (Ok (_, x)) => x | _ => e end)) in H. symmetry. exact H.
Qed.

Lemma filter_length_le : forall A (p : A -> bool) l, (length (filter p l) <= length l)%nat.
Proof. induction l as [|x l IH]; [reflexivity|]. cbn [filter]. destruct (p x); cbn [length]; lia. Qed.
Lemma filter_full : forall A (p : A -> bool) l, length (filter p l) = length l -> filter p l = l.
Proof.
  induction l as [|x l IH]; intro H; [reflexivity|]. cbn [filter] in *. assert (Hle := filter_length_le A p l). destruct (p x).
  - cbn in H. f_equal. apply IH. lia.
  - cbn in H. lia.
Qed.
Lemma combine_fst : forall A B (u : list A) (l : list B), length u = length l -> map fst (combine u l) = u.
Proof. induction u as [|x u IH]; intros [|y l] H; try discriminate; [reflexivity|]. cbn. f_equal. apply IH. cbn in H. lia. Qed.
Lemma positions_full : forall A (p : A -> bool) l, zlen (positions p l) = zlen l -> positions p l = range 0 (zlen l).
Proof.
  intros A p l H. unfold positions in *. rewrite upto_range in *. rewrite zlen_map in H.
  assert (Hr : length (range 0 (zlen l)) = length l) by (pose proof (range_len 0 (zlen l)); pose proof (zlen_nonneg l); unfold zlen in *; lia).
  assert (Hc : length (combine (range 0 (zlen l)) l) = length l) by (rewrite combine_length, Hr; lia).
  rewrite filter_full by (rewrite Hc; apply Nat2Z.inj; exact H). apply combine_fst. exact Hr.
Qed.

Section Cell.
Context (F : bool -> Z -> list C -> list C) (pw : Z -> Z -> Qc) (E : Qc -> C) (norm : Z -> Qc).
Context (n : Z) (cplx : bool) (LFFT ov step : Z) (window : option (Z -> Z -> Qc)) (pfb : bool) (rate f0 : Qc) (clip : Z).
Hypothesis HLF : 0 < LFFT.
Hypothesis Hn : 0 <= n.
Hypothesis Hrate : (0 < rate)%Qc.
Hypothesis Hov : 0 < ov.
Let L := if cplx then LFFT else 2 * LFFT.
Hypothesis Hstep : L = step * ov.
Let freq := frequencies cplx LFFT rate f0.
Let fr := znth 0%Qc (LFFT / 2) freq.
Let taps := if pfb then 4 else 1.
Let weights := if pfb then Some (pw (L * 4)) else match window with Some w => Some (w L) | None => None end.

Definition front N (rows : list (list C)) (delay : Z -> Z -> Qc) (tau : Z -> Qc -> Qc) : Prop :=
  zlen rows = N /\ (forall r, In r rows -> zlen r = n) /\ (forall i j, 0 <= i < N -> delay i j = tau i (znth 0%Qc j freq)) /\ (forall i, 0 <= i < N -> (0 <= tau i fr)%Qc).

Lemma fx_cell : forall N rows1 rows2 delay1 delay2 tau1 tau2 junk1 junk2 ord1 ord2 ordX nFFT e1 e2,
  0 < N -> front N rows1 delay1 tau1 -> front N rows2 delay2 tau2 ->
  fengine F pw E norm n rows1 N delay1 freq cplx LFFT ov window pfb rate clip junk1 ord1 = Some (Ok (nFFT, e1)) ->
  fengine F pw E norm n rows2 N delay2 freq cplx LFFT ov window pfb rate clip junk2 ord2 = Some (Ok (nFFT, e2)) ->
  exists dmax, greatest (map (fun i => lag rate fr (tau1 i)) (range 0 N)) dmax /\ zlen (starts L (n - dmax) step) = nFFT /\
    (Permutation ord1 (range 0 (N * nFFT)) -> Permutation ord2 (range 0 (N * nFFT)) -> Permutation ordX (range 0 (zlen (mapper N))) ->
     forall b i j k, 0 <= b < zlen (mapper N) -> znth (0, 0) b (mapper N) = (i, j) -> 0 <= k < LFFT ->
     xengine2 N LFFT nFFT (fst e1) (fst e2) (snd e1) (snd e2) ordX (b * LFFT + k) =
     correlation E (norm L) (F (negb cplx) LFFT) L taps weights clip step rate fr dmax (znth 0%Qc k freq) (if cplx then shifted_bin LFFT k else k)
       (znth [] i rows1) (znth [] j rows2) (tau1 i) (tau2 j)).
Proof.
  intros N rows1 rows2 delay1 delay2 tau1 tau2 junk1 junk2 o1 o2 oX nFFT e1 e2 HN (Z1 & R1 & D1 & P1) (Z2 & R2 & D2 & P2) H1 H2.
  assert (EL : fft_len cplx LFFT = L) by (unfold fft_len, L; destruct cplx; lia).
  assert (HL : 0 < L) by (unfold L; destruct cplx; lia).
  assert (Ew : weights_of pw pfb L window = weights) by (unfold weights_of, weights; destruct pfb, window; reflexivity).
  assert (Et : taps_of pfb = taps) by (unfold taps_of, taps; destruct pfb; reflexivity).
  assert (Ht : 0 < taps) by (unfold taps; destruct pfb; lia).
  assert (Hst : 0 < step) by nia.
  destruct (fengine_ok _ _ _ _ _ _ _ _ _ _ _ _ _ _ _ _ _ _ _ _ H1) as (_ & C1 & Hf & ->).
  destruct (fengine_ok _ _ _ _ _ _ _ _ _ _ _ _ _ _ _ _ _ _ _ _ H2) as (_ & C2 & _ & ->).
  rewrite EL, Ew, Et in *. rewrite Z1 in C1. rewrite Z2 in C2.
  assert (L1 : forall i, 0 <= i < N -> fifo_of LFFT rate delay1 i = lag rate fr (tau1 i) /\ 0 <= lag rate fr (tau1 i)).
  { intros i Hi. apply (fifo_lag E rate f0 cplx LFFT HLF Hrate); [intro j; apply D1; exact Hi|apply P1; exact Hi]. }
  assert (L2 : forall i, 0 <= i < N -> fifo_of LFFT rate delay2 i = lag rate fr (tau2 i) /\ 0 <= lag rate fr (tau2 i)).
  { intros i Hi. apply (fifo_lag E rate f0 cplx LFFT HLF Hrate); [intro j; apply D2; exact Hi|apply P2; exact Hi]. }
  assert (G1 : greatest (map (fifo_of LFFT rate delay1) (range 0 N)) (fifo_max N (fifo_of LFFT rate delay1))).
  { apply fifo_max_greatest; [exact HN|]. intros i Hi. destruct (L1 i Hi) as [-> ?]. assumption. }
  assert (G2 : greatest (map (fifo_of LFFT rate delay2) (range 0 N)) (fifo_max N (fifo_of LFFT rate delay2))).
  { apply fifo_max_greatest; [exact HN|]. intros i Hi. destruct (L2 i Hi) as [-> ?]. assumption. }
  exists (fifo_max N (fifo_of LFFT rate delay1)). split; [|split].
  - rewrite <- (map_ext_in (fifo_of LFFT rate delay1)); [exact G1|]. intros i Hi. apply range_in in Hi. apply L1. exact Hi.
  - destruct (count_starts n _ L ov step nFFT Hov Hst Hstep Hn C1 Hf) as [S1 _]. rewrite S1, zlen_map, range_len. lia.
  - intros O1 O2 OX b i j k Hb Hm Hk.
    assert (Hij : 0 <= i < N /\ 0 <= j < N).
    { assert (HI : In (i, j) (mapper N)) by (rewrite <- Hm; apply znth_In; exact Hb). rewrite mapper_all in HI. apply (pairs_in true) in HI. lia. }
    destruct Hij as [Hi Hj].
    pose proof (xcell (F (negb cplx) LFFT) L taps clip weights n nFFT LFFT ov step N cplx rows1 rows2 junk1 junk2 (fifo_of LFFT rate delay1) (fifo_of LFFT rate delay2)
      (fifo_max N (fifo_of LFFT rate delay1)) (fifo_max N (fifo_of LFFT rate delay2))
      (rotator E (norm L) LFFT rate (if cplx then Z.quot LFFT 2 else 0) (fun j => znth 0%Qc j freq) delay1)
      (rotator E (norm L) LFFT rate (if cplx then Z.quot LFFT 2 else 0) (fun j => znth 0%Qc j freq) delay2) o1 o2 oX b i j k) as X.
    cbv zeta in X. rewrite X; clear X; try assumption.
    + unfold correlation. destruct (L1 i Hi) as [-> _]. destruct (L2 j Hj) as [-> _].
      pose proof (rot_turn E (norm L) rate f0 cplx LFFT HLF Hrate delay1 i (tau1 i) k (fun j => D1 i j Hi) (P1 i Hi) Hk) as T1.
      pose proof (rot_turn E (norm L) rate f0 cplx LFFT HLF Hrate delay2 j (tau2 j) k (fun q => D2 j q Hj) (P2 j Hj) Hk) as T2.
      fold freq fr L in T1, T2. rewrite T1, T2.
      reflexivity.
    + intros q Hq. destruct (L1 q Hq) as [Eq Hq0]. rewrite Eq. split; [exact Hq0|]. rewrite <- Eq. apply G1. apply in_map. apply range_in. exact Hq.
    + intros q Hq. destruct (L2 q Hq) as [Eq Hq0]. rewrite Eq. split; [exact Hq0|]. rewrite <- Eq. apply G2. apply in_map. apply range_in. exact Hq.
Qed.
End Cell.
