(** Lemmas about valid sessions. *)
From Coq Require Import Ascii String.
From Coq Require Import List ZArith Bool Lia QArith Qround Qabs Lqa.
From Verif Require Import M_Str P_Str P_Bar M_Sdf S_Sdf S_SdfValid P_SdfBack.
Import ListNotations.
Open Scope Z_scope.
Ltac Zify.zify_post_hook ::= Z.div_mod_to_equations.

Lemma between_iff : forall a x b, between a x b = true <-> a <= x <= b.
Proof. intros. unfold between. rewrite andb_true_iff, !Z.leb_le. tauto. Qed.
Lemma fits_iff : forall b, fits b = true <-> fits_drsu b.
Proof.
  intro b. unfold fits, fits_drsu. fold DRSU. rewrite negb_true_iff. split; intro H.
  - apply Qnot_le_lt. intro C. apply Qle_bool_iff in C. congruence.
  - destruct (Qle_bool DRSU b) eqn:E; auto. apply Qle_bool_iff in E. exfalso. apply (Qlt_not_le _ _ H). exact E.
Qed.
Lemma forallb_iff : forall (A : Type) (f : A -> bool) (P : A -> Prop) l, (forall x, f x = true <-> P x) -> forallb f l = true <-> forall x, In x l -> P x.
Proof. intros A f P l H. rewrite forallb_forall. split; intros G x X; apply H; auto. Qed.
Lemma settings_iff : forall o, asp_ok o = true <-> good_settings o.
Proof.
  intro o. unfold asp_ok, good_settings. rewrite !andb_true_iff, !Nat.leb_le.
  rewrite (forallb_iff _ _ (fun f : Z * Z => (-1 <= fst f <= 1) /\ (-1 <= snd f <= 1))) by (intro; rewrite andb_true_iff, !between_iff; tauto).
  rewrite (forallb_iff _ _ (fun f => -1 <= f <= 7)) by (intro; apply between_iff). rewrite !(forallb_iff _ _ (fun f => -1 <= f <= 15)) by (intro; apply between_iff).
  rewrite (forallb_iff _ _ (fun f => -1 <= f <= 31)) by (intro; apply between_iff). unfold NSTD. tauto.
Qed.
Lemma tuning2_iff : forall f, tuning2_ok f = true <-> good_tuning f \/ f = 0.
Proof. intro f. unfold tuning2_ok. rewrite orb_true_iff, between_iff, Z.eqb_eq. unfold good_tuning, DRX_MIN, DRX_MAX. tauto. Qed.
Lemma step_iff : forall rd p, step_ok p && Bool.eqb (p_radec p) rd = true <-> good_step rd p.
Proof.
  intros rd p. unfold step_ok, good_step. rewrite !andb_true_iff, eqb_true_iff, Z.leb_le, between_iff, tuning2_iff. unfold good_tuning, DRX_MIN, DRX_MAX.
  destruct (p_spec p) as [[d g]|]; [rewrite andb_true_iff, !Nat.eqb_eq; unfold NSTD; cbn [Nat.mul Nat.add]|]; tauto.
Qed.
Lemma obs_iff : forall visible a b m o, (match o_setup o with STEPPED _ _ ss => (length ss <= 1023)%nat | _ => True end) ->
  obs_ok visible a b m o = inr true <-> good_mode visible o /\ good_settings o /\ fits_drsu (bytes a b m o).
Proof.
  intros visible a b m o H. unfold obs_ok, good_mode. rewrite <- settings_iff, <- fits_iff. destruct (o_setup o) as [n|f1 f|k f1 f2 f h|f rd ss].
  - split; intro X; [injection X as X; rewrite !andb_true_iff, Z.leb_le in X; tauto|]. f_equal. rewrite !andb_true_iff, Z.leb_le. tauto.
  - split; intro X; [injection X as X; rewrite !andb_true_iff, Z.leb_le, Z.eqb_eq, between_iff in X; unfold TBS_MIN, TBS_MAX in X; tauto|]. f_equal. rewrite !andb_true_iff, Z.leb_le, Z.eqb_eq, between_iff. unfold TBS_MIN, TBS_MAX. tauto.
  - unfold good_tuning at 1. fold DRX_MIN DRX_MAX. split; intro X; [injection X as X; rewrite !andb_true_iff, Z.leb_le, !between_iff, tuning2_iff in X; tauto|]. f_equal. rewrite !andb_true_iff, Z.leb_le, !between_iff, tuning2_iff. tauto.
  - assert (S : forallb (fun p => step_ok p && Bool.eqb (p_radec p) rd) ss = true <-> Forall (good_step rd) ss) by (rewrite Forall_forall; apply forallb_iff; intro; apply step_iff).
    destruct ss as [|p ss]; [split; [discriminate|]; intros [(_ & L & _) _]; cbn in L; lia|]. remember (p :: ss) as l eqn:EL. assert (N : (1 <= length l)%nat) by (subst; cbn; lia). clear EL p ss.
    split; intro X; [injection X as X|f_equal]; rewrite !andb_true_iff, between_iff, S, Z.leb_le in *; unfold MAX_STP_N in *; intuition lia.
Qed.
Lemma obs_sound : forall visible a b m o, obs_ok visible a b m o = inr true -> good_mode visible o /\ good_settings o /\ fits_drsu (bytes a b m o).
Proof.
  intros visible a b m o H. apply obs_iff; auto. unfold obs_ok in H. destruct (o_setup o) as [| | |f rd ss]; auto. destruct ss as [|p ss]; [discriminate|]. apply inr_inj in H. rewrite !andb_true_iff, Z.leb_le in H. unfold MAX_STP_N in H.
  cbn [length] in *. lia.
Qed.
Lemma all_iff : forall visible a b m l, all_ok visible a b m l = inr true <-> Forall (fun o => obs_ok visible a b m o = inr true) l.
Proof.
  induction l as [|o l IH]; [split; auto|]. cbn [all_ok]. split.
  - destruct (obs_ok visible a b m o) as [e|x] eqn:E; [discriminate|]. destruct (all_ok visible a b m l) as [e|y]; [discriminate|]. intro H. injection H as H. apply andb_true_iff in H. destruct H as [-> ->]. constructor; auto. apply IH. auto.
  - intro H. inversion H; subst. rewrite H2. apply IH in H3. rewrite H3. reflexivity.
Qed.

(** *** Observations at the same time *)
Lemma few_iff : forall (A : Type) (f : A -> bool) l, (length (filter f l) <= 1)%nat <-> ForallOrdPairs (fun a b => f a && f b = false) l.
Proof.
  intros A f l. induction l as [|a l IH]; [split; [constructor|cbn; lia]|]. cbn [filter]. destruct (f a) eqn:E.
  - cbn [length]. split.
    + intro H. assert (N : filter f l = []) by (destruct (filter f l); [auto|cbn in H; lia]). constructor; [|apply IH; rewrite N; cbn; lia]. apply Forall_forall. intros b B. rewrite E. cbn. destruct (f b) eqn:F; auto.
      exfalso. assert (X : In b (filter f l)) by (apply filter_In; auto). rewrite N in X. exact X.
    + intro H. inversion H as [|x y F O]; subst. assert (N : filter f l = []); [|rewrite N; auto]. destruct (filter f l) as [|b r] eqn:G; auto. exfalso. assert (X : In b (filter f l)) by (rewrite G; left; auto). apply filter_In in X. destruct X as [X1 X2].
      rewrite Forall_forall in F. specialize (F b X1). rewrite E, X2 in F. discriminate.
  - rewrite IH. split; intro H; [constructor; auto; apply Forall_forall; intros; rewrite E; reflexivity|inversion H; auto].
Qed.
Lemma pairs_from : forall (A : Type) (R : A -> A -> A -> Prop) big l, incl l big -> (forall o, In o big -> ForallOrdPairs (R o) l) -> ForallOrdPairs (fun a b => R a a b /\ R b a b) l.
Proof.
  intros A R big l. induction l as [|a l IH]; intros I H; constructor.
  - apply Forall_forall. intros b B. split.
    + specialize (H a (I a (or_introl eq_refl))). inversion H as [|x y F O]; subst. rewrite Forall_forall in F. auto.
    + specialize (H b (I b (or_intror B))). inversion H as [|x y F O]; subst. rewrite Forall_forall in F. auto.
  - apply IH; [intros x X; apply I; right; auto|]. intros o O. specialize (H o O). inversion H; auto.
Qed.
Lemma pairs_weaken : forall (A : Type) (R S : A -> A -> Prop) (P : A -> Prop) l, Forall P l -> (forall a b, P a -> P b -> R a b -> S a b) -> ForallOrdPairs R l -> ForallOrdPairs S l.
Proof.
  intros A R S P l F H. induction l as [|a l IH]; intro O; constructor; inversion O; inversion F; subst.
  - rewrite Forall_forall in *. intros b B. apply H; auto.
  - apply IH; auto.
Qed.
Lemma apart_iff : forall l, Forall (fun o => 1 <= o_dur o) l -> apart l = true <-> ForallOrdPairs disjoint l.
Proof.
  intros l D. unfold apart. rewrite forallb_forall. split; intro H.
  - assert (G : forall o, In o l -> ForallOrdPairs (fun a b => ((start a <=? start o) && (start o <? start a + o_dur a)) && ((start b <=? start o) && (start o <? start b + o_dur b)) = false) l).
    { intros o O. apply (few_iff _ (fun c => (start c <=? start o) && (start o <? start c + o_dur c)) l). apply Nat.leb_le. apply H. auto. }
    apply (pairs_from _ _ l l) in G; [|intros x X; auto]. revert G. apply (pairs_weaken _ _ _ _ _ D). intros a b A B [X Y]. unfold disjoint. unfold start in *. clear - A B X Y.
    rewrite !andb_false_iff, !Z.leb_gt, !Z.ltb_ge in X, Y. lia.
  - intros o O. apply Nat.leb_le. apply (few_iff _ (fun c => (start c <=? start o) && (start o <? start c + o_dur c)) l). revert H. apply (pairs_weaken _ _ _ _ _ D). intros a b A B X. unfold disjoint, start in *. clear - A B X.
    apply not_true_iff_false. intro Y. rewrite !andb_true_iff, !Z.leb_le, !Z.ltb_lt in Y. lia.
Qed.

(** *** Sessions *)
Lemma tb_iff : forall o, is_tb o = true <-> tb o.
Proof. intro o. unfold is_tb, tb. destruct (o_setup o); split; auto; discriminate. Qed.
Lemma upd_tb : forall o, is_tb (upd o) = is_tb o.
Proof. intro o. unfold is_tb. destruct (upd_fields o) as [-> _]. reflexivity. Qed.
Lemma kind_iff : forall l, negb (existsb is_tb (map upd l) && existsb (fun o => negb (is_tb o)) (map upd l)) = true <-> Forall tb l \/ Forall (fun o => ~ tb o) l.
Proof.
  intro l. rewrite negb_true_iff, andb_false_iff. split.
  - intros [H|H]; [right|left]; apply Forall_forall; intros o O.
    + intro T. apply tb_iff in T. apply not_true_iff_false in H. apply H. apply existsb_exists. exists (upd o). split; [apply in_map; auto|]. rewrite upd_tb. auto.
    + apply tb_iff. destruct (is_tb o) eqn:E; auto. exfalso. apply not_true_iff_false in H. apply H. apply existsb_exists. exists (upd o). split; [apply in_map; auto|]. rewrite upd_tb, E. auto.
  - intros [H|H]; [right|left]; apply not_true_iff_false; intro X; apply existsb_exists in X; destruct X as (y & Y & E); apply in_map_iff in Y; destruct Y as (o & <- & O); rewrite upd_tb in E; rewrite Forall_forall in H; specialize (H o O).
    + apply tb_iff in H. rewrite H in E. discriminate.
    + apply H. apply tb_iff. auto.
Qed.
Lemma chan_iff : forall n, in_list n chan_counts = true <-> exists k, 1 <= k <= 13 /\ n = 2 ^ k.
Proof.
  intro n. split.
  - intro H. apply in_list_in in H. cbn in H.
    repeat (destruct H as [H|H]; [|]); try contradiction; subst n; [exists 1|exists 2|exists 3|exists 4|exists 5|exists 6|exists 7|exists 8|exists 9|exists 10|exists 11|exists 12|exists 13]; (split; [lia|reflexivity]).
  - intros (k & K & ->). assert (C : k = 1 \/ k = 2 \/ k = 3 \/ k = 4 \/ k = 5 \/ k = 6 \/ k = 7 \/ k = 8 \/ k = 9 \/ k = 10 \/ k = 11 \/ k = 12 \/ k = 13) by lia.
    repeat (destruct C as [C|C]; [subst k; reflexivity|]). subst k. reflexivity.
Qed.
Lemma win_iff : forall n, in_list n win_counts = true <-> exists k, 0 <= k <= 9 /\ n = 384 * 2 ^ k.
Proof.
  intro n. split.
  - intro H. apply in_list_in in H. cbn in H.
    repeat (destruct H as [H|H]; [|]); try contradiction; subst n; [exists 0|exists 1|exists 2|exists 3|exists 4|exists 5|exists 6|exists 7|exists 8|exists 9]; (split; [lia|reflexivity]).
  - intros (k & K & ->). assert (C : k = 0 \/ k = 1 \/ k = 2 \/ k = 3 \/ k = 4 \/ k = 5 \/ k = 6 \/ k = 7 \/ k = 8 \/ k = 9) by lia.
    repeat (destruct C as [C|C]; [subst k; reflexivity|]). subst k. reflexivity.
Qed.
Lemma str_refl : forall s, str_eqb s s = true.
Proof. induction s as [|c s IH]; cbn; auto. rewrite Z.eqb_refl. auto. Qed.
Lemma meta_iff : forall m, existsb (str_eqb m) metatags = true <-> In m [tx ""; tx "{Stokes=XXYY}"; tx "{Stokes=IQUV}"; tx "{Stokes=IV}"].
Proof.
  intro m. rewrite existsb_exists. change metatags with [tx ""; tx "{Stokes=XXYY}"; tx "{Stokes=IQUV}"; tx "{Stokes=IV}"]. split.
  - intros (y & Y & E). apply str_eqb_true in E. subst. auto.
  - intro H. exists m. split; auto. apply str_refl.
Qed.
Lemma spc_iff : forall s, (if (0 <? s_nchan s) || (0 <? s_nwin s) || negb (str_eqb (s_meta s) [])
   then in_list (s_nchan s) chan_counts && in_list (s_nwin s) win_counts && existsb (str_eqb (s_meta s)) metatags && negb (match map upd (s_obs s) with o :: _ => is_tb o | [] => false end)
   else true) = true <-> good_spectrometer s.
Proof.
  intro s. assert (T : negb (match map upd (s_obs s) with o :: _ => is_tb o | [] => false end) = true <-> match s_obs s with o :: _ => ~ tb o | [] => True end).
  { destruct (s_obs s) as [|o l]; cbn; [tauto|]. rewrite upd_tb, negb_true_iff, <- tb_iff. destruct (is_tb o); split; congruence. }
  unfold good_spectrometer. destruct (_ || _) eqn:E.
  - rewrite !andb_true_iff, chan_iff, win_iff, meta_iff, T. split; [right; tauto|]. intros [(A & B & C)|H]; [|tauto]. exfalso. rewrite !orb_true_iff, negb_true_iff, !Z.ltb_lt in E. rewrite C in E. cbn in E. intuition (lia || discriminate).
  - split; [left|auto]. rewrite !orb_false_iff, negb_false_iff, !Z.ltb_ge in E. destruct E as [[A B] C]. apply str_eqb_true in C. auto.
Qed.
Lemma intervals_iff : forall l, forallb (fun i => -1 <=? i) l = true <-> Forall (fun i => -1 <= i) l.
Proof. intro l. rewrite Forall_forall. apply forallb_iff. intro. apply Z.leb_le. Qed.
Lemma total_eq : forall a b m l, fold_right (fun o x => (bytes a b m o + x)%Q) 0%Q l = fold_right Qplus 0%Q (map (bytes a b m) l).
Proof. induction l as [|o l IH]; cbn; auto. rewrite IH. reflexivity. Qed.
Lemma tbt_dur_pos : forall n, 0 <= n -> 1 <= tbt_dur n.
Proof.
  intros n N. unfold tbt_dur. pose proof (half_even_near ((inject_Z n / 196000 + 1) * 150 + 5000)) as H. apply Qabs_Qle_condition in H. destruct H as [H _].
  assert (Q : (0 <= inject_Z n / 196000)%Q). { unfold Qdiv. apply Qmult_le_0_compat; [rewrite <- (Zle_Qle 0); auto|vm_compute; congruence]. }
  set (r := (inject_Z n / 196000)%Q) in *. assert (P : (1 <= inject_Z (half_even ((r + 1) * 150 + 5000)))%Q) by lra. rewrite <- (Zle_Qle 1) in P. exact P.
Qed.
Lemma sum_pos : forall l, l <> [] -> Forall (fun x => 1 <= x) l -> 1 <= sum l.
Proof.
  intros l N F. assert (G : forall l, Forall (fun x => 1 <= x) l -> 0 <= sum l) by (induction l0 as [|a m IH]; intro H; cbn; [lia|inversion H; subst; specialize (IH H3); fold (sum m) in *; lia]).
  destruct l as [|a l]; [contradiction|]. inversion F; subst. cbn. fold (sum l). specialize (G l H2). lia.
Qed.
Lemma good_durs : forall visible s, Forall obs_wf (s_obs s) -> (forall o n, In o (s_obs s) -> o_setup o = TBT n -> 0 <= n) ->
  Forall (fun o => good_mode visible o) (map upd (s_obs s)) -> Forall (fun o => 1 <= o_dur o) (map upd (s_obs s)).
Proof.
  intros visible s W T G. rewrite Forall_forall in *. intros x X. specialize (G x X). apply in_map_iff in X. destruct X as (o & <- & O). specialize (W o O). specialize (T o). unfold good_mode in G.
  destruct (upd_fields o) as [E _]. rewrite E in G. destruct (o_setup o) as [n|f1 f|k f1 f2 f h|f rd ss] eqn:S; try tauto.
  - pose proof (w_setup o W) as D. rewrite S in D. unfold upd. rewrite S, D. apply tbt_dur_pos. eauto.
  - unfold upd. rewrite S. cbn [o_dur]. destruct G as (_ & L & F & _). apply sum_pos; [destruct ss; [cbn in L; lia|discriminate]|]. apply Forall_forall. intros y Y. apply in_map_iff in Y. destruct Y as (p & <- & P). rewrite Forall_forall in F. destruct (F p P) as (_ & D & _). lia.
Qed.
Lemma session_iff : forall visible s, Forall (fun o => 1 <= o_dur o) (map upd (s_obs s)) ->
  session_ok visible s = inr true <-> (good_session visible s /\ Forall (fun o => obs_ok visible (s_nchan s) (s_nwin s) (s_meta s) o = inr true) (map upd (s_obs s))).
Proof.
  intros visible s D. unfold session_ok. split.
  - intro H. destruct (all_ok visible (s_nchan s) (s_nwin s) (s_meta s) (map upd (s_obs s))) as [e|g] eqn:A; [discriminate|]. injection H as H. rewrite !andb_true_iff, !between_iff, kind_iff, spc_iff, !intervals_iff, total_eq, fits_iff, orb_true_iff, Z.eqb_eq, between_iff, (apart_iff _ D) in H. unfold BEAMS_MAX in H.
    destruct H as [[[[[[[[[H1 H2] H3] H4] H5] H6] H7] H8] H9] H10]. subst g. apply all_iff in A. split; auto. split; auto. revert A. apply Forall_impl. intro o. apply obs_sound.
  - intros [G A]. apply all_iff in A. rewrite A. f_equal. destruct G. rewrite !andb_true_iff, !between_iff, kind_iff, spc_iff, !intervals_iff, total_eq, fits_iff, orb_true_iff, Z.eqb_eq, between_iff, (apart_iff _ D). unfold BEAMS_MAX. tauto.
Qed.
