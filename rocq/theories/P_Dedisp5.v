(** Incoherent dedispersion as a whole, window sizes and the cache. *)
From Coq Require Import String.
From Coq Require Import List ZArith QArith Qround Qabs Qpower Lqa Bool Lia.
From Verif Require Import LibList M_Bar M_Flt M_Dedisp S_Dedisp P_Base P_Flt P_Dedisp P_Dedisp3 P_Dedisp4.
Import ListNotations.
Open Scope Z_scope.

Definition channel_delay (dm : Q) (f0 f : Q) : Q := fl (fl (dm * D) * fl (inv2 f - inv2 f0)).
Definition top (freq : list Q) : Q := match freq with [] => 0%Q | f :: l => fmax f l end.
Lemma delay_list : forall freq dm, (2 <= length freq)%nat -> delay freq dm = Ok (Array (map (channel_delay dm (top freq)) freq)).
Proof. intros [|f [|g l]] dm L; simpl in L; try lia. reflexivity. Qed.

Lemma half_even_mono : forall x y, (x <= y)%Q -> half_even x <= half_even y.
Proof.
  intros x y H. destruct (Z.le_gt_cases (half_even x) (half_even y)) as [L|L]; auto. exfalso.
  pose proof (half_even_half x) as X. pose proof (half_even_half y) as Y. apply Qabs_Qle_condition in X, Y.
  assert (I : (inject_Z (half_even y) + 1 <= inject_Z (half_even x))%Q).
  { change 1%Q with (inject_Z 1). rewrite <- inject_Z_plus, <- Zle_Qle. lia. }
  assert (E : (x == y)%Q) by lra. rewrite (half_even_comp x y E) in L. lia.
Qed.
Lemma shift_mono : forall tInt t t', (0 < tInt)%Q -> (t <= t')%Q -> shift tInt t <= shift tInt t'.
Proof.
  intros tInt t t' Ht H. unfold shift. apply half_even_mono. apply fl_mono. unfold Qdiv. apply Qmult_le_compat_r; auto. apply Qlt_le_weak. apply Qinv_lt_0_compat. auto.
Qed.

Lemma combine_map_in : forall A B (h : A -> B) l x y, In (x, y) (combine l (map h l)) -> In x l /\ y = h x.
Proof.
  intros A B h l x y. induction l as [|a l IH]; intro H; [destruct H|]. destruct H as [E|H].
  - injection E as <- <-. split; auto. left. auto.
  - destruct (IH H). split; auto. right. auto.
Qed.
Lemma Forall2_map_self : forall A B (R : A -> B -> Prop) h l, (forall x, In x l -> R x (h x)) -> Forall2 R l (map h l).
Proof.
  intros A B R h l. induction l as [|a l IH]; intro H; simpl; constructor; [apply H; left; auto|]. apply IH. intros. apply H. right. auto.
Qed.

Lemma shifts_ok : forall freq tInt dm, (2 <= length freq)%nat -> (forall f, In f freq -> (0 < f)%Q) -> (0 < tInt)%Q -> (0 <= dm)%Q ->
  shifts_for freq tInt dm (map (shift tInt) (map (channel_delay dm (top freq)) freq)).
Proof.
  intros freq tInt dm L F Ht Hd.
  assert (M : In (top freq) freq /\ forall f, In f freq -> (f <= top freq)%Q).
  { destruct freq as [|f l]; [simpl in L; lia|]. apply fmax_spec. }
  destruct M as [M1 M2]. exists (top freq). split; auto. split; auto. rewrite map_map.
  split.
  - apply Forall2_map_self. intros f Hf. destruct (shift_close tInt dm f (top freq) Ht Hd (F f Hf) (M2 f Hf)) as [S1 S2].
    split; [exact S1|]. split; [|exact S2]. intro E. unfold shift, channel_delay.
    assert (E0 : (inv2 f - inv2 (top freq) == 0)%Q).
    { pose proof (inv2_mono f (top freq) (F f Hf) ltac:(rewrite E; apply Qle_refl)). pose proof (inv2_mono (top freq) f (F _ M1) ltac:(rewrite E; apply Qle_refl)). lra. }
    rewrite (half_even_comp _ 0); [reflexivity|]. rewrite fl_zero; [reflexivity|]. rewrite fl_zero; [unfold Qdiv; ring|]. rewrite (fl_zero _ E0). ring.
  - intros f d g e H1 H2 Hfg. apply combine_map_in in H1, H2. destruct H1 as [I1 ->]. destruct H2 as [I2 ->].
    apply shift_mono; auto. unfold channel_delay. apply fl_mono.
    assert (P0 : (0 <= fl (dm * D))%Q). { apply fl_nonneg. pose proof D_pos. nra. }
    rewrite !(Qmult_comm (fl (dm * D))). apply Qmult_le_compat_r; auto. apply fl_mono. pose proof (inv2_mono f g (F f I1) Hfg). lra.
Qed.

Lemma opp_shifts : forall freq tInt dm, map (shift tInt) (map (channel_delay (- dm) (top freq)) freq) = map Z.opp (map (shift tInt) (map (channel_delay dm (top freq)) freq)).
Proof.
  intros freq tInt dm. rewrite !map_map. apply map_ext. intro f. apply shift_opp. unfold channel_delay. destruct freq as [|g l].
  - rewrite <- fl_opp. apply fl_comp. rewrite (fl_comp (- dm * D) (- (dm * D))) by ring. rewrite fl_opp. ring.
  - apply delay_opp.
Qed.

Section Waterfall.
Context {A : Type}.
Implicit Types w : list (list A).

Lemma incoherent_wrap : forall times0 freq w tInt dm fill, (2 <= length freq)%nat -> length w = length freq ->
  exists out, incoherent times0 freq w tInt dm "wrap" fill = Ok out /\ channels wrapped (map (shift tInt) (map (channel_delay dm (top freq)) freq)) w out.
Proof.
  intros times0 freq w tInt dm fill L Lw. unfold incoherent. cbn [String.eqb orb negb]. rewrite delay_list by auto. cbn [bind].
  set (ds := map (shift tInt) (map (channel_delay dm (top freq)) freq)).
  assert (Ld : length w = length ds) by (unfold ds; rewrite !map_length; auto).
  destruct (dd_channels_ok wrapped false fill ds w (map (map times0) w) []) as (r & E & C); auto.
  - intros a d _. apply roll_wrapped.
  - rewrite map_length. auto.
  - specialize (E [] eq_refl). rewrite !app_nil_r in E. exists r. split; auto.
Qed.

Lemma incoherent_fill : forall times0 freq w tInt dm fill, (2 <= length freq)%nat -> length w = length freq ->
  Forall (Z.le 0) (map (shift tInt) (map (channel_delay dm (top freq)) freq)) ->
  exists out, incoherent times0 freq w tInt dm "fill" fill = Ok out /\ channels (filled fill) (map (shift tInt) (map (channel_delay dm (top freq)) freq)) w out.
Proof.
  intros times0 freq w tInt dm fill L Lw FA. unfold incoherent. cbn [String.eqb orb negb]. rewrite delay_list by auto. cbn [bind].
  set (ds := map (shift tInt) (map (channel_delay dm (top freq)) freq)) in *.
  assert (Ld : length w = length ds) by (unfold ds; rewrite !map_length; auto).
  destruct (dd_channels_ok (filled fill) true fill ds w (map (map times0) w) []) as (r & E & C); auto.
  - intros a d Hd. apply fill_filled. rewrite Forall_forall in FA. auto.
  - rewrite map_length. auto.
  - specialize (E [] eq_refl). rewrite !app_nil_r in E. exists r. split; auto.
Qed.

Lemma channels_negative : forall fill ds w out, Forall (fun d => d <= 0) ds -> dd_channels true fill ds w out = dd_channels (A := A) false fill ds w out.
Proof.
  intros fill ds. induction ds as [|d ds IH]; intros [|c w] [|o out] F; auto. inversion F as [|? ? F1 F2]; subst. cbn [dd_channels].
  rewrite IH by auto. replace (0 <? d) with false by lia. reflexivity.
Qed.
End Waterfall.

(** ** Window size *)
Lemma log2_up_spec : forall s, (0 < s)%Q -> (s <= 2 ^ log2_up s)%Q /\ (2 ^ (log2_up s - 1) < s)%Q.
Proof.
  intros s Hs. destruct (qlog2_spec s) as [Q1 Q2]; [lra|]. rewrite (Qabs_pos s) in * by lra. unfold log2_up. set (e := qlog2 s) in *.
  destruct (Qle_bool s (2 ^ e)%Q) eqn:B.
  - apply Qle_bool_iff in B. split; auto. pose proof (two_pos (e - 1)). assert (2 ^ e == 2 ^ (e - 1) * 2)%Q.
    { replace e with (e - 1 + 1) at 1 by lia. rewrite two_plus. reflexivity. } lra.
  - assert (~ (s <= 2 ^ e)%Q) by (rewrite <- Qle_bool_iff, B; discriminate). split; [lra|]. replace (e + 1 - 1) with e by lia. lra.
Qed.

Lemma window_size : forall F0 BW dm,
  let samples := (true_delay dm (F0 - BW / 2) (F0 + BW / 2) * BW)%Q in (1 < samples)%Q ->
  exists N, get_coherent_sample_size F0 BW dm = Ok (2 * N) /\ 0 < N /\ (samples <= inject_Z N)%Q /\ (inject_Z N < 2 * samples)%Q.
Proof.
  intros F0 BW dm samples H1. unfold get_coherent_sample_size. fold (true_delay dm (F0 - BW / 2) (F0 + BW / 2)). fold samples.
  destruct (Qeq_bool samples 0) eqn:E0; [apply Qeq_bool_iff in E0; lra|].
  destruct (Qle_bool samples 0) eqn:E1; [apply Qle_bool_iff in E1; lra|].
  destruct (log2_up_spec samples ltac:(lra)) as [S1 S2]. set (e := log2_up samples) in *.
  assert (He : 0 <= e). { assert (0 < e); [|lia]. apply two_lt_inv. change (2 ^ 0)%Q with 1%Q. lra. }
  exists (2 ^ e). rewrite (Qfloor_comp _ (inject_Z (2 * 2 ^ e))) by (rewrite inject_Z_mult, two_Z by auto; ring). rewrite Qfloor_Z.
  split; auto. split; [apply Z.pow_pos_nonneg; lia|]. rewrite two_Z by auto. split; auto.
  assert (2 ^ e == 2 * 2 ^ (e - 1))%Q. { replace e with (1 + (e - 1)) at 1 by lia. rewrite two_plus. reflexivity. } lra.
Qed.

(** ** One sample as window *)
Lemma one_sample : forall T A (zT : T) (zA : A) dd t x pt pd nt nd, x <> [] -> zlen t = zlen x ->
  coherent_with zT zA 1 dd t x pt pd nt nd = Ok (zeros zT (zlen x), zeros zA (zlen x)).
Proof.
  intros T A zT zA dd t x pt pd nt nd Nx Lt. assert (L : 0 < zlen x) by (destruct x; [congruence|rewrite zlen_cons; pose proof (zlen_nonneg x); lia]).
  unfold coherent_with. cbn [Z.eqb]. rewrite Z.div_1_r. destruct (Z.eqb_spec (zlen x) 0); [lia|].
  assert (P : forall i, pass zT zA dd 1 (zlen x) t x pt pd nt nd i (zeros zT (zlen x), zeros zA (zlen x)) = Ok (zeros zT (zlen x), zeros zA (zlen x))).
  { intro i. unfold pass. change (1 / 2) with 0. change (1 / 4) with 0. rewrite Z.mul_0_l. cbn [Z.sub Z.opp Z.add]. unfold window. cbn [Z.ltb Z.compare].
    change (0 + 1) with 1. destruct (Z.ltb_spec (zlen x) 1); [lia|]. cbn [bind]. rewrite zlen_zeros by lia.
    destruct (Z.leb_spec (zlen x) 0); [lia|]. change (0 - 0) with 0. destruct ((i =? 0) && absent pd); auto. destruct ((i =? 2 * zlen x) && absent nd); auto.
    rewrite assign_ok by (rewrite ?zlen_slice, ?zlen_zeros by lia; lia). cbn [bind].
    rewrite assign_ok by (rewrite ?zlen_slice, ?zlen_zeros by lia; lia). cbn [bind].
    unfold slice. change (0 - 0) with 0. rewrite !(ztake_0 0), !(zdrop_0 0) by lia. reflexivity. }
  generalize (range 0 (2 * zlen x + 1)). intro l. induction l as [|i l IH]; auto. cbn [passes]. rewrite P. cbn [bind]. auto.
Qed.

(** ** The cache *)
Section Cache.
Context {K V R : Type} (keq : K -> K -> bool) (compute : K -> res V).
Hypothesis same : forall k k', keq k k' = true -> compute k = compute k'.
Notation after_calls := (after_calls keq compute).
Definition good (c : list (K * V)) : Prop := Forall (fun kv => compute (fst kv) = Ok (snd kv)) c.

Lemma cached_good : forall c k v, good c -> cached keq c k = Some v -> compute k = Ok v.
Proof.
  intros c k v G. induction c as [|[k' v'] c IH]; intro E; [discriminate|]. inversion G as [|? ? G1 G2]; subst. cbn [cached] in E.
  destruct (keq k k') eqn:Ek; [|auto]. injection E as <-. rewrite (same _ _ Ek). exact G1.
Qed.
Lemma lookup_good : forall c k e, good c -> good (fst (lookup_chirp keq compute c k e)) /\ snd (lookup_chirp keq compute c k e) = compute k.
Proof.
  intros c k e G. unfold lookup_chirp. destruct (cached keq c k) as [v|] eqn:E.
  - split; auto. cbn [snd]. symmetry. apply (cached_good c); auto.
  - destruct (compute k) as [v|x] eqn:E1; cbn [fst snd]; [|auto]. split; auto. destruct e; auto. constructor; auto.
Qed.
Lemma after_good : forall l c, good c -> good (after_calls c l).
Proof. induction l as [|[k e] l IH]; intros c G; auto. cbn [after_calls]. apply IH. apply lookup_good. auto. Qed.
Lemma call_fresh : forall l k e (rest : V -> res R), snd (call keq compute (after_calls [] l) k e rest) = bind (compute k) rest.
Proof.
  intros l k e rest. unfold call. destruct (lookup_good (after_calls [] l) k e) as [_ E]; [apply after_good; constructor|].
  destruct (lookup_chirp keq compute (after_calls [] l) k e) as [c r]. cbn [snd] in *. subst r. reflexivity.
Qed.
End Cache.
