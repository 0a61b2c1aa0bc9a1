(** Calls of coherent that fail, and incoherent dedispersion. *)
From Coq Require Import String List ZArith QArith Bool Lia.
From Verif Require Import LibList M_Dedisp S_Dedisp P_Base P_Dedisp.
Import ListNotations.
Open Scope Z_scope.

Lemma assign_bad : forall A (a : list A) lo hi b, 0 <= lo <= hi -> hi <= zlen a -> zlen b <> hi - lo -> zlen b <> 1 -> assign a lo hi b = Raise ValueError.
Proof.
  intros A a lo hi b H1 H2 H3 H4. unfold assign. replace (Z.min lo (zlen a)) with lo by lia. replace (Z.max lo (Z.min hi (zlen a))) with hi by lia.
  destruct (Z.eqb_spec (zlen b) (hi - lo)); [congruence|]. destruct b as [|x [|y b]]; auto. exfalso. apply H4. reflexivity.
Qed.

Lemma half_N : forall H, 2 * H / 2 = H. Proof. intro. rewrite Z.mul_comm. apply Z.div_mul. lia. Qed.
Lemma quarter_N : forall H, 2 * H / 4 = H / 2.
Proof. intro H. replace (2 * H) with (H * 2) by lia. change 4 with (2 * 2). apply Z.div_mul_cancel_r; lia. Qed.

Section Short.
Context {T A : Type} (zT : T) (zA : A).
Context (H : Z) (t : list T) (x : list A).
Hypothesis HH : 0 < H.
Let Q := H / 2.
Let N := 2 * H.
Hypothesis Ht : zlen t = zlen x.
Hypothesis HN : N <= zlen x.

Lemma short_previous : forall dd pt pd nt nd, zlen pt = zlen pd -> zlen pd < Q -> zlen pd <> 1 ->
  coherent_with zT zA N dd t x (Some pt) (Some pd) nt nd = Raise RuntimeError.
Proof.
  intros dd pt pd nt nd Lp Sp Np. unfold coherent_with. pose proof (zlen_nonneg pd).
  assert (BQ : 0 < Q <= H) by (unfold Q in *; Z.div_mod_to_equations; lia).
  destruct (Z.eqb_spec N 0); [unfold N in *; lia|]. destruct (Z.eqb_spec (zlen x / N) 0) as [E|E]; [reflexivity|].
  assert (0 < zlen x / N) by (apply Z.div_str_pos; unfold N in *; lia).
  rewrite range_cons by lia. cbn [passes]. unfold pass. replace (N / 2) with H by (symmetry; apply half_N). replace (N / 4) with Q by (symmetry; apply quarter_N). unfold window.
  rewrite Z.mul_0_r, Z.sub_0_l. destruct (Z.ltb_spec (- Q) 0); [|lia].
  unfold window_start. cbn [subscript bind]. rewrite Z.opp_involutive.
  rewrite assign_bad; [reflexivity|lia|rewrite zlen_zeros; unfold N; lia| |]; unfold last_of; rewrite zlen_zdrop by lia; lia.
Qed.

Lemma short_next : forall dd p nt nd, (forall y, zlen y = N -> zlen (dd y) = N) -> enough Q p ->
  zlen nt = zlen nd -> zlen nd < N * (zlen x / N) + N - Q - zlen x -> zlen nd <> 1 ->
  coherent_with zT zA N dd t x (option_map fst p) (option_map snd p) (Some nt) (Some nd) = Raise RuntimeError.
Proof.
  intros dd p nt nd Hdd Hp Ln Sn Nn. unfold coherent_with. pose proof (zlen_nonneg nd).
  assert (BQ : 0 <= Q <= H /\ 2 * Q <= H) by (unfold Q in *; Z.div_mod_to_equations; lia).
  destruct (Z.eqb_spec N 0) as [?|_]; [unfold N in *; lia|]. set (n := zlen x / N) in *. destruct (Z.eqb_spec n 0) as [E|E]; [reflexivity|].
  assert (B : 0 < n) by (apply Z.div_str_pos; unfold N in *; lia).
  pose proof (Z.div_mod (zlen x) N ltac:(unfold N; lia)) as DM. pose proof (Z.mod_pos_bound (zlen x) N ltac:(unfold N; lia)) as MB. fold n in DM.
  (* a window that lacks data *)
  assert (W : forall i o, 0 <= i <= 2 * n -> zlen nd < H * i - Q + N - zlen x ->
    pass zT zA dd N n t x (option_map fst p) (option_map snd p) (Some nt) (Some nd) i o = Raise RuntimeError).
  { intros i [oT oD] Hi Si. unfold pass. replace (N / 2) with H by (symmetry; apply half_N). replace (N / 4) with Q by (symmetry; apply quarter_N). unfold window.
    destruct (Z.ltb_spec (H * i - Q) 0); [unfold N in *; nia|]. destruct (Z.ltb_spec (zlen x) (H * i - Q + N)); [|lia].
    assert (H * i - Q <= zlen x) by (unfold N in *; nia).
    unfold window_stop. cbn [subscript bind]. rewrite assign_bad; [reflexivity| | | |].
    - unfold N in *; lia.
    - rewrite zlen_zeros; unfold N; lia.
    - rewrite zlen_slice by lia. lia.
    - rewrite zlen_slice by lia. lia. }
  assert (G : forall m, 0 <= m <= 2 * n -> (forall i, 0 <= i < m -> H * i - Q + N - zlen x <= zlen nd) -> zlen nd < H * m - Q + N - zlen x ->
    passes (pass zT zA dd N n t x (option_map fst p) (option_map snd p) (Some nt) (Some nd)) (range 0 (2 * n + 1)) (zeros zT (zlen x), zeros zA (zlen x)) = Raise RuntimeError).
  { intros m Hm Hok Hbad.
    assert (R : range 0 (2 * n + 1) = range 0 m ++ m :: range (m + 1) (2 * n + 1)).
    { rewrite <- (range_cons m) by lia. unfold range. replace (Z.to_nat (2 * n + 1 - 0)) with (Z.to_nat (m - 0) + Z.to_nat (2 * n + 1 - m))%nat by lia.
      rewrite seq_app, map_app. f_equal. apply (nth_ext _ _ 0 0); rewrite !map_length, !seq_length; auto. intros k Hk.
      rewrite (nth_indep _ 0 (0 + Z.of_nat 0)) by (rewrite map_length, seq_length; auto). rewrite (map_nth (fun k => 0 + Z.of_nat k)).
      rewrite (nth_indep (map _ (seq 0 _)) 0 (m + Z.of_nat 0)) by (rewrite map_length, seq_length; auto). rewrite (map_nth (fun k => m + Z.of_nat k)).
      rewrite !seq_nth by auto. lia. }
    rewrite R, passes_app.
    destruct (passes_ok zT zA H n t x p (Some (nt, nd)) HH Ht eq_refl B Hp dd m Hdd) as (o & E0 & _); [lia| |].
    - intros i Hi. specialize (Hok i Hi). cbn [enough]. fold Q N. lia.
    - cbn [option_map fst snd] in E0. fold N in E0. rewrite E0. cbn [bind passes]. rewrite W by lia. reflexivity. }
  destruct (Z.le_gt_cases (H * (2 * n - 1) - Q + N - zlen x) (zlen nd)) as [C|C].
  - apply (G (2 * n)); [lia| |unfold N in *; lia]. intros i Hi. assert (H * i <= H * (2 * n - 1)) by nia. lia.
  - apply (G (2 * n - 1)); [lia| |lia]. intros i Hi. assert (H * i <= H * (2 * n - 2)) by nia. unfold N in *. lia.
Qed.
End Short.

(** ** Incoherent *)
Section Waterfall.
Context {A : Type}.

Lemma zlen_roll : forall (a : list A) s, zlen (roll a s) = zlen a.
Proof.
  intros a s. unfold roll. rewrite zlen_app. unfold zlen, zdrop, ztake. rewrite skipn_length, firstn_length. lia.
Qed.
Lemma znth_roll : forall z (a : list A) s k, 0 <= k < zlen a -> znth z k (roll a s) = znth z ((k - s) mod zlen a) a.
Proof.
  intros z a s k Hk. unfold roll. set (n := zlen a) in *. pose proof (Z.mod_pos_bound s n ltac:(lia)) as B.
  assert (L : zlen (zdrop (n - s mod n) a) = s mod n) by (rewrite zlen_zdrop by lia; fold n; lia).
  assert (E : (k - s) mod n = if k <? s mod n then k - s mod n + n else k - s mod n).
  { pose proof (Z.div_mod s n ltac:(lia)). destruct (Z.ltb_spec k (s mod n)); symmetry.
    - apply (Z.mod_unique _ _ (- (s / n) - 1)); [lia|]. lia.
    - apply (Z.mod_unique _ _ (- (s / n))); [lia|]. lia. }
  rewrite E. destruct (Z.ltb_spec k (s mod n)).
  - rewrite znth_app_l by lia. rewrite znth_zdrop by lia. f_equal. lia.
  - rewrite znth_app_r by lia. rewrite L. apply znth_ztake. lia.
Qed.
Lemma roll_wrapped : forall (a : list A) d, wrapped a (roll a (- d)) d.
Proof. intros a d. split; [apply zlen_roll|]. intros z k Hk. rewrite znth_roll by auto. f_equal. f_equal. lia. Qed.
Lemma roll_back : forall (a : list A) d, roll (roll a (- d)) d = a.
Proof.
  intros a d. destruct a as [|x a]; [unfold roll, ztake, zdrop; rewrite ?skipn_nil, ?firstn_nil; simpl; rewrite ?skipn_nil, ?firstn_nil; reflexivity|].
  apply (znth_ext x); rewrite !zlen_roll; auto. intros k Hk. rewrite znth_roll by (rewrite zlen_roll; auto). rewrite zlen_roll.
  rewrite znth_roll by (apply Z.mod_pos_bound; lia). f_equal. rewrite Zminus_mod_idemp_l. rewrite Z.mod_small by lia. lia.
Qed.
Lemma fill_filled : forall (a : list A) d f, 0 <= d -> filled f a (if true && (0 <? d) then fill_last (roll a (- d)) d f else roll a (- d)) d.
Proof.
  intros a d f Hd. cbn [andb]. pose proof (zlen_nonneg a) as L0. destruct (Z.ltb_spec 0 d).
  - split.
    + unfold fill_last. rewrite zlen_app, zlen_repeat, !zlen_roll. destruct (Z.le_gt_cases 0 (zlen a - d)).
      * rewrite zlen_ztake by lia. rewrite zlen_roll. lia.
      * rewrite ztake_0 by lia. rewrite zlen_nil. lia.
    + intros z k Hk. unfold fill_last. rewrite zlen_roll. replace (0 <=? k + d) with true by lia. cbn [andb].
      destruct (Z.ltb_spec (k + d) (zlen a)).
      * rewrite znth_app_l by (rewrite zlen_ztake, zlen_roll by lia; lia). rewrite znth_ztake by lia. rewrite znth_roll by auto. f_equal.
        rewrite Z.mod_small by lia. lia.
      * assert (LT : zlen (ztake (zlen a - d) (roll a (- d))) = Z.max 0 (zlen a - d)).
        { destruct (Z.le_gt_cases 0 (zlen a - d)); [rewrite zlen_ztake, zlen_roll by lia; lia|rewrite ztake_0 by lia; rewrite zlen_nil; lia]. }
        rewrite znth_app_r by lia. rewrite LT.
        unfold znth. destruct (Z.ltb_spec (k - Z.max 0 (zlen a - d)) 0); [lia|]. apply repeat_spec with (n := Z.to_nat (Z.min d (zlen a))). apply nth_In. rewrite repeat_length. lia.
  - replace d with 0 by lia. destruct (roll_wrapped a 0) as [L E]. split; auto. intros z k Hk. rewrite E by auto.
    rewrite Z.add_0_r. rewrite Z.mod_small by lia. replace ((0 <=? k) && (k <? zlen a)) with true by lia. reflexivity.
Qed.

Lemma dd_channels_ok : forall (made : list A -> list A -> Z -> Prop) b f ds cols out rest,
  (forall a d, In d ds -> made a (if b && (0 <? d) then fill_last (roll a (- d)) d f else roll a (- d)) d) ->
  length cols = length ds -> length out = length ds ->
  exists r, (forall rest', length rest' = length rest -> dd_channels b f ds (cols ++ rest') (out ++ rest) = Ok (r ++ rest)) /\ channels made ds cols r.
Proof.
  intros made b f ds. induction ds as [|d ds IH]; intros [|c cols] [|o out] rest HM L1 L2; try discriminate.
  - exists []. split; [intros; reflexivity|constructor].
  - destruct (IH cols out rest) as (r & E & C); auto. { intros. apply HM. right. auto. }
    eexists (_ :: r). split.
    + intros rest' Lr. cbn [dd_channels app]. rewrite (E rest' Lr). cbn [bind]. reflexivity.
    + constructor; auto. apply HM. left. auto.
Qed.
Lemma dd_channels_short : forall b f ds cols out, length out = length cols -> (length cols < length ds)%nat -> dd_channels b f ds cols out = Raise (A := list (list A)) IndexError.
Proof.
  intros b f ds. induction ds as [|d ds IH]; intros [|c cols] [|o out] L1 L2; try discriminate; simpl in L2; try lia; auto.
  cbn [dd_channels]. simpl in L1. rewrite IH by lia. reflexivity.
Qed.

Lemma channels_back : forall f ds (w w' : list (list A)) out, length w = length ds -> length out = length ds ->
  dd_channels false f ds w out = Ok w' -> forall out', length out' = length ds -> dd_channels false f (map Z.opp ds) w' out' = Ok w.
Proof.
  intros f ds. induction ds as [|d ds IH]; intros [|c w] w' [|o out] L1 L2 E [|o' out'] L3; try discriminate.
  - cbn in E. injection E as <-. reflexivity.
  - cbn [dd_channels andb] in E. destruct (dd_channels false f ds w out) as [r|e] eqn:E1; [|discriminate]. cbn [bind] in E. injection E as <-.
    cbn [map dd_channels andb]. rewrite (IH w r out) by auto. cbn [bind]. rewrite Z.opp_involutive, roll_back. reflexivity.
Qed.
End Waterfall.
