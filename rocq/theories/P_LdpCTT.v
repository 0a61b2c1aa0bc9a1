(** Theorems about CORFile.read and TBXFile.read. *)
From Coq Require Import List ZArith Bool Lia Permutation QArith_base Qround.
From Verif Require Import M_LdpCT S_LdpCT S_Buffer P_Buffer P_BufferModes P_Flt P_Astro P_LdpSets.
Import ListNotations.
Open Scope Z_scope.

(** *** Look-ups *)
Lemma index_In : forall A (eqb : A -> A -> bool) (EQ : forall x y, eqb x y = true <-> x = y) x l, In x l -> exists n, index eqb x l = Some n.
Proof.
  intros A eqb EQ x. induction l as [|y l IH]; intro H; [contradiction|]. cbn. destruct (eqb x y) eqn:E; eauto.
  destruct H as [->|H]; [rewrite (proj2 (EQ x x) eq_refl) in E; discriminate|]. destruct (IH H) as [n ->]. eauto.
Qed.
Lemma index_nth : forall A (eqb : A -> A -> bool) (EQ : forall x y, eqb x y = true <-> x = y) x l n, index eqb x l = Some n -> nth_error l n = Some x.
Proof.
  intros A eqb EQ x. induction l as [|y l IH]; cbn; intros n H; [discriminate|]. destruct (eqb x y) eqn:E.
  - injection H as <-. apply EQ in E. subst. auto.
  - destruct (index eqb x l) as [k|]; [|discriminate]. injection H as <-. cbn. auto.
Qed.
Lemma index_app : forall A (eqb : A -> A -> bool) (EQ : forall x y, eqb x y = true <-> x = y) x a b, ~ In x a ->
  index eqb x (a ++ b) = match index eqb x b with Some n => Some (length a + n)%nat | None => None end.
Proof.
  intros A eqb EQ x a b. induction a as [|y a IH]; intro H; cbn.
  - destruct (index eqb x b); auto.
  - destruct (eqb x y) eqn:E; [apply EQ in E; subst; destruct H; left; auto|]. rewrite IH by (intro X; apply H; right; auto).
    destruct (index eqb x b); auto.
Qed.
Lemma index_app_l : forall A (eqb : A -> A -> bool) x a b m, index eqb x a = Some m -> index eqb x (a ++ b) = Some m.
Proof.
  intros A eqb x a b. induction a as [|y a IH]; cbn; intros m H; [discriminate H|]. destruct (eqb x y); auto.
  destruct (index eqb x a) as [q|]; [|discriminate H]. rewrite (IH q eq_refl). auto.
Qed.
Lemma index_position : forall c l, In c l -> index Z.eqb c l = Some (position c l) /\ (position c l < length l)%nat.
Proof.
  intros c. induction l as [|x l IH]; intro H; [contradiction|]. cbn. destruct (Z.eq_dec c x) as [->|X].
  - rewrite Z.eqb_refl. split; auto. lia.
  - destruct (Z.eqb_spec c x); [contradiction|]. destruct H as [->|H]; [congruence|]. destruct (IH H) as [-> IH2]. split; auto. lia.
Qed.
Lemma position_inj : forall l c d, In c l -> In d l -> position c l = position d l -> c = d.
Proof.
  intros l c d Hc Hd H. destruct (index_position c l Hc) as [A _], (index_position d l Hd) as [B _].
  apply index_nth in A; [|intros; apply Z.eqb_eq]. apply index_nth in B; [|intros; apply Z.eqb_eq]. rewrite H in A. congruence.
Qed.

Notation row n := (fun i => map (fun j => [Z.of_nat i; Z.of_nat j]) (seq i (S n - i))).
Lemma rows_len : forall n len i, (i + len <= S n)%nat ->
  2 * Z.of_nat (length (flat_map (row n) (seq i len))) = Z.of_nat len * (2 * Z.of_nat n + 3 - 2 * Z.of_nat i - Z.of_nat len).
Proof.
  intros n. induction len as [|len IH]; intros i H; [reflexivity|]. cbn [seq flat_map]. rewrite app_length, map_length, seq_length.
  specialize (IH (S i)). nia.
Qed.
Lemma pairs_len : forall n, length (pairs n) = (n * (n + 1) / 2)%nat.
Proof.
  intro n. pose proof (rows_len n n 1 ltac:(lia)) as H. fold (pairs n) in H. apply Nat.div_unique with 0%nat; lia.
Qed.
Lemma in_row : forall n i a b, In [a; b] (row n i) <-> a = Z.of_nat i /\ Z.of_nat i <= b <= Z.of_nat n.
Proof.
  intros n i a b. rewrite in_map_iff. split.
  - intros (j & X & Hj). apply in_seq in Hj. injection X as <- <-. lia.
  - intros [-> H]. exists (Z.to_nat b). split; [f_equal; f_equal; lia|]. apply in_seq. lia.
Qed.
Lemma index_row : forall n a b m, (a <= b)%nat -> (b < a + m)%nat -> index id_eqb [Z.of_nat n; Z.of_nat b] (map (fun j => [Z.of_nat n; Z.of_nat j]) (seq a m)) = Some (b - a)%nat.
Proof.
  intros n a b m. revert a. induction m as [|m IH]; intros a H1 H2; [lia|]. cbn [seq map index].
  destruct (id_eqb _ _) eqn:E.
  - apply id_eqb_eq in E. injection E as E. f_equal. lia.
  - destruct (Nat.eq_dec a b) as [->|X].
    + assert (id_eqb [Z.of_nat n; Z.of_nat b] [Z.of_nat n; Z.of_nat b] = true) by (apply id_eqb_eq; auto). congruence.
    + rewrite IH by lia. f_equal. lia.
Qed.
Lemma index_pairs : forall n a b, 1 <= a <= b -> b <= Z.of_nat n ->
  index id_eqb [a; b] (pairs n) = Some (Z.to_nat (baseline_number (Z.of_nat n) a b)).
Proof.
  intros n a b H1 H2. set (i := Z.to_nat a). set (j := Z.to_nat b).
  assert (EQ : forall x y, id_eqb x y = true <-> x = y) by (intros; apply id_eqb_eq).
  assert (SP : pairs n = flat_map (row n) (seq 1 (i - 1)) ++ row n i ++ flat_map (row n) (seq (S i) (n - i))).
  { unfold pairs. replace (seq 1 n) with (seq 1 (i - 1) ++ i :: seq (S i) (n - i)).
    - rewrite flat_map_app. cbn [flat_map]. auto.
    - replace n with ((i - 1) + S (n - i))%nat at 2 by lia. rewrite seq_app. f_equal. replace (1 + (i - 1))%nat with i by lia. auto. }
  rewrite SP, (index_app _ _ EQ).
  2:{ intro X. apply in_flat_map in X. destruct X as (x & Hx & X). apply in_seq in Hx. apply in_row in X. lia. }
  assert (R : index id_eqb [a; b] (row n i ++ flat_map (row n) (seq (S i) (n - i))) = Some (j - i)%nat).
  { apply index_app_l. replace a with (Z.of_nat i) by lia. replace b with (Z.of_nat j) by lia. apply index_row; lia. }
  rewrite R. f_equal. pose proof (rows_len n (i - 1) 1 ltac:(lia)) as LN.
  unfold baseline_number.
  assert (D : (a - 1) * (a - 2) / 2 = (a - 1) * Z.of_nat n - Z.of_nat (length (flat_map (row n) (seq 1 (i - 1))))).
  { symmetry. apply Z.div_unique with 0; [lia|]. replace (Z.of_nat (i - 1)) with (a - 1) in LN by lia. nia. }
  rewrite D. lia.
Qed.

(** *** The two readers *)
Lemma in_order_ext : forall F (time : F -> Z) ident samples P Q rows w file t0 skip L total e ns outs, (forall i, P i <-> Q i) ->
  in_order time ident samples P rows w file t0 skip L total e ns outs -> in_order time ident samples Q rows w file t0 skip L total e ns outs.
Proof.
  intros F time ident samples P Q rows w file t0 skip L total e ns outs H I. induction I; [constructor| |constructor; auto].
  apply io_read; auto. intros i Hi. apply H3. apply H. auto.
Qed.
Lemma ids_once_ext : forall F (time : F -> Z) ident P Q file, (forall i, P i <-> Q i) -> ids_once time ident P file -> ids_once time ident Q file.
Proof. intros F time ident P Q file H [A B]. split; auto. intros f Hf. apply H. auto. Qed.
Lemma last_seq : forall n, (1 <= n)%nat -> S (last (seq 0 n) 0%nat) = n.
Proof. intros n H. destruct n as [|n]; [lia|]. rewrite seq_S, last_last. auto. Qed.
Lemma recording_seq : forall F time samples (file : list (cslot F)) t0 skip n L, recording time samples file t0 skip (seq 0 n) L -> (1 <= n)%nat.
Proof. intros F time samples file t0 skip n L H. pose proof (proj1 (rc_grid _ _ _ _ _ _ _ H)) as G. destruct n; cbn in G; [discriminate|lia]. Qed.
Lemma grid_seq : forall n i, (i < length (seq 0 n))%nat -> nth i (seq 0 n) 0%nat = i.
Proof. intros n i H. rewrite seq_length in H. rewrite seq_nth by auto. auto. Qed.

Definition cid (f : cor_frame) : list Z := [c_s0 f; c_s1 f; c_chan f].
Definition xid (f : tbx_frame) : list Z := [x_chan f].
Notation stand_list n := (map Z.of_nat (seq 1 n)).

Lemma cor_kind : forall stands chans nseg re C, NoDup chans -> cor_cfg_of (stand_list stands) chans nseg re = Ok C ->
  c_nseg C = nseg /\ (forall i, In i (c_possible C) <-> cor_id stands chans i) /\ cor_fpo stands chans = length (c_possible C) /\
  (forall f, cor_id stands chans (cid f) -> cor_place stands chans f = Ok (cor_row stands chans (cid f))) /\
  (forall i, cor_id stands chans i -> (cor_row stands chans i < cor_fpo stands chans)%nat) /\
  (forall i j, cor_id stands chans i -> cor_id stands chans j -> cor_row stands chans i = cor_row stands chans j -> i = j).
Proof.
  intros stands chans nseg re C HN HC.
  assert (NS : NoDup (stand_list stands)).
  { apply FinFun.Injective_map_NoDup; [intros x y H; lia|apply seq_NoDup]. }
  destruct (cor_cfg_count _ _ _ _ _ NS HN HC) as (K1 & K2 & K3 & K4). rewrite map_length, seq_length in K3.
  assert (EQ : forall x y, id_eqb x y = true <-> x = y) by (intros; apply id_eqb_eq).
  assert (BN : forall a b, 1 <= a <= b -> b <= Z.of_nat stands -> nth_error (pairs stands) (Z.to_nat (baseline_number (Z.of_nat stands) a b)) = Some [a; b]).
  { intros a b H1 H2. apply (index_nth _ _ EQ). apply index_pairs; auto. }
  split; [|split; [|split; [|split; [|split]]]].
  - unfold cor_cfg_of in HC. destruct (negb _); [discriminate|]. injection HC as <-. auto.
  - intro i. rewrite K4. split; intros (a & b & c & -> & H).
    + destruct H as (Ha & Hb & Hab & Hc). apply in_map_iff in Ha, Hb. destruct Ha as (x & <- & Hx), Hb as (y & <- & Hy). apply in_seq in Hx, Hy.
      exists (Z.of_nat x), (Z.of_nat y), c. repeat split; auto; lia.
    + destruct H as (Hab & Hb & Hc). exists a, b, c. split; auto. split; [|split; [|split; [lia|auto]]]; apply in_map_iff.
      * exists (Z.to_nat a). split; [lia|]. apply in_seq. lia.
      * exists (Z.to_nat b). split; [lia|]. apply in_seq. lia.
  - rewrite <- K1, K3. unfold cor_fpo. lia.
  - intros f (a & b & c & E & H1 & H2 & H3). injection E as E1 E2 E3. unfold cor_place, cid, cor_row. rewrite E1, E2, E3.
    rewrite index_pairs by auto. destruct (index_position c chans H3) as [-> _]. auto.
  - intros i (a & b & c & -> & H1 & H2 & H3). unfold cor_row, cor_fpo. rewrite <- pairs_len.
    assert (X : (Z.to_nat (baseline_number (Z.of_nat stands) a b) < length (pairs stands))%nat) by (apply nth_error_Some; rewrite BN by auto; discriminate).
    destruct (index_position c chans H3) as [_ Y]. nia.
  - intros i j (a & b & c & -> & H1 & H2 & H3) (a' & b' & c' & -> & H1' & H2' & H3') E. unfold cor_row in E.
    destruct (index_position c chans H3) as [_ Y], (index_position c' chans H3') as [_ Y'].
    assert (X : Z.to_nat (baseline_number (Z.of_nat stands) a b) = Z.to_nat (baseline_number (Z.of_nat stands) a' b') /\ position c chans = position c' chans).
    { apply (Nat.div_mod_unique (length chans)); auto. rewrite !(Nat.mul_comm (length chans)). auto. }
    destruct X as [X1 X2]. pose proof (BN a b H1 H2) as B1. rewrite X1, BN in B1 by auto. injection B1 as -> ->.
    apply position_inj in X2; auto. subst. auto.
Qed.
Lemma tbx_kind : forall chans nseg re C, NoDup chans -> tbx_cfg chans nseg re = Ok C ->
  c_nseg C = nseg /\ (forall i, In i (c_possible C) <-> tbx_id chans i) /\ length chans = length (c_possible C) /\
  (forall f, tbx_id chans (xid f) -> tbx_place chans f = Ok (tbx_row chans (xid f))) /\
  (forall i, tbx_id chans i -> (tbx_row chans i < length chans)%nat) /\
  (forall i j, tbx_id chans i -> tbx_id chans j -> tbx_row chans i = tbx_row chans j -> i = j).
Proof.
  intros chans nseg re C HN HC. destruct (tbx_cfg_count _ _ _ _ HN HC) as (K1 & K2 & K3 & K4).
  split; [|split; [|split; [|split; [|split]]]].
  - unfold tbx_cfg in HC. destruct (negb _); [discriminate|]. injection HC as <-. auto.
  - intro i. rewrite K4. unfold tbx_id. tauto.
  - lia.
  - intros f (c & E & H). injection E as E. unfold tbx_place, xid, tbx_row. rewrite E. destruct (index_position c chans H) as [-> _]. auto.
  - intros i (c & -> & H). apply (index_position c chans H).
  - intros i j (c & -> & H) (d & -> & H') E. cbn in E. apply position_inj in E; auto. subst. auto.
Qed.

(** ** C72 *)
(** C72: a COR recording without missing integrations, frames possibly late or missing, is returned by any sequence of read() calls
    integration by integration, once each, in time order, every baseline and channel in its row, zeros where a frame is missing; then comes EOFError.
    The step between integrations is the one the reader computes. *)
Lemma C72_cor_in_order_proof : forall stands chans nseg re C navg ignore file t0 N L pos ns, NoDup chans -> chans <> [] -> (1 <= stands)%nat -> (2 <= nseg)%nat ->
  cor_cfg_of (stand_list stands) chans nseg re = Ok C ->
  cor_skip navg = navg * 1960000 ->
  recording c_tt c_data file t0 (navg * 1960000) (seq 0 N) L -> in_window c_tt nseg file -> ids_once c_tt cid (cor_id stands chans) file ->
  Forall (fun n => (1 <= n)%nat) ns ->
  in_order c_tt cid c_data (cor_id stands chans) (length chans * (stands * (stands + 1) / 2)) (cor_row stands chans) file t0 (navg * 1960000) L N 0 ns
    (calls (fun n => cor_read cor_ops C c_data (cor_place stands chans) (cor_fpo stands chans) (cor_skip navg) ignore (Some n)) ns (open_cf C pos file)).
Proof.
  intros stands chans nseg re C navg ignore file t0 N L pos ns HN HE HS HG HC HK R W I Hns.
  destruct (cor_kind _ _ _ _ _ HN HC) as (C1 & C2 & C3 & C4 & C5 & C6).
  assert (LW : lawful cor_ops C).
  { apply (cor_lawful (stand_list stands) chans nseg re); auto; [|lia]. apply FinFun.Injective_map_NoDup; [intros x y H; lia|apply seq_NoDup]. }
  pose proof (recording_seq _ _ _ _ _ _ _ _ R) as N1.
  rewrite HK. rewrite <- (last_seq N N1) at 1. change (length chans * (stands * (stands + 1) / 2))%nat with (cor_fpo stands chans).
  apply (in_order_ext _ _ _ _ (fun i => In i (c_possible C))); auto.
  rewrite <- C1 in W, HG.
  apply (cor_in_order cor_ops C c_data (cor_place stands chans) (cor_row stands chans) (cor_fpo stands chans) (navg * 1960000) ignore (fun f _ => f) LW C3) with (t0 := t0) (grid := seq 0 N) (L := L); auto.
  - intros f Hf. apply C4. apply C2. auto.
  - intros i Hi. apply C5. apply C2. auto.
  - intros i j Hi Hj. apply C6; apply C2; auto.
  - intros f i. cbn. destruct i as [|? [|? [|? [|]]]]; reflexivity.
  - eapply ids_once_ext; [|exact I]. intro i. symmetry. auto.
  - unfold cor_fpo. rewrite <- pairs_len. destruct chans; [congruence|].
    pose proof (index_pairs stands 1 1 ltac:(lia) ltac:(lia)) as P. destruct (pairs stands); [discriminate P|]. cbn [length]. nia.
  - apply grid_seq.
Qed.

(** Two stands, two channel blocks, buffer of 3: late and missing frames, a bad frame, a cut-off end. *)
Definition ec (k a b c v : Z) : cslot cor_frame := CFrame (mkCor c a b (1000 + k * 98000000) [Fin v] true).
Definition ex_cor : list (cslot cor_frame) :=
  [ec 0 1 1 8 1; ec 0 1 2 8 2; ec 0 2 2 8 3; ec 0 1 1 4 4; CBad; ec 1 1 1 4 7; ec 0 1 2 4 5; ec 0 2 2 4 6; COther;
   ec 1 1 2 8 8; ec 1 2 2 4 9; ec 2 1 1 4 10; ec 2 2 2 8 11; CTail].
Ltac nodup := repeat (constructor; [let X := fresh in cbn; intro X; repeat (destruct X as [X|X]; [discriminate X|]); exact X|]); constructor.
Lemma C72_cor_in_order_example_proof : exists C, cor_cfg_of (stand_list 2) [4; 8] 3 false = Ok C /\ cor_skip 50 = 50 * 1960000 /\
  recording c_tt c_data ex_cor 1000 (50 * 1960000) (seq 0 3) 1 /\ in_window c_tt 3 ex_cor /\ ids_once c_tt cid (cor_id 2 [4; 8]) ex_cor /\
  calls (fun n => cor_read cor_ops C c_data (cor_place 2 [4; 8]) (cor_fpo 2 [4; 8]) (cor_skip 50) false (Some n)) [2; 2; 1]%nat (open_cf C 0 ex_cor) =
   [Ok (2%nat, Some 1000, [[[Fin 4]; [Fin 7]]; [[Fin 1]; [Fin 0]]; [[Fin 5]; [Fin 0]]; [[Fin 2]; [Fin 8]]; [[Fin 6]; [Fin 9]]; [[Fin 3]; [Fin 0]]]);
    Ok (1%nat, Some (1000 + 2 * 98000000), [[[Fin 10]]; [[Fin 0]]; [[Fin 0]]; [[Fin 0]]; [[Fin 0]]; [[Fin 11]]]); Raise EOFError].
Proof.
  eexists. split; [reflexivity|]. split; [vm_compute; reflexivity|]. split; [|split; [|split]].
  - split.
    + lia.
    + split; auto. intros i Hi. rewrite !grid_seq by lia. lia.
    + reflexivity.
    + intros f Hf. cbn in Hf. repeat (destruct Hf as [<-|Hf]; [split; [reflexivity|intros x [<-|[]]; eauto]|]). contradiction.
    + intros l r H. unfold ex_cor in H.
      do 13 (destruct l as [|? l]; [discriminate H|injection H as _ H]). destruct l as [|? l]; [injection H as H; auto|].
      injection H as _ H. destruct l; discriminate H.
  - intros p f q H. cbn in H.
    do 11 (destruct p as [|? p]; [injection H as <- <-; vm_compute; lia|injection H as <- H]). destruct p; discriminate H.
  - split.
    + intros f Hf. cbn in Hf. repeat (destruct Hf as [<-|Hf]; [do 3 eexists; split; [reflexivity|]; cbn; lia|]). contradiction.
    + vm_compute. nodup.
  - vm_compute. reflexivity.
Qed.


(** The time step the reader computes in double precision is the right one or one too small. *)
Lemma fl_pos_err : forall x, (0 <= x)%Q -> (x * (1 - (1 # 9007199254740992)) <= fl x <= x * (1 + (1 # 9007199254740992)))%Q.
Proof.
  intros x H. pose proof (fl_err x) as E. rewrite (Qabs.Qabs_pos x H) in E. apply Qabs.Qabs_Qle_condition in E.
  change (2 ^ 53)%positive with 9007199254740992%positive in E. split; qlra.
Qed.
Lemma cor_skip_near : forall navg, 1 <= navg < 2 ^ 30 -> cor_skip navg = navg * 1960000 \/ cor_skip navg = navg * 1960000 - 1.
Proof.
  intros navg H. unfold cor_skip. set (n := inject_Z navg).
  assert (N1 : (1 <= n)%Q) by (change 1%Q with (inject_Z 1); unfold n; rewrite <- Zle_Qle; lia).
  assert (N2 : (n <= 1073741824)%Q) by (change 1073741824%Q with (inject_Z (2 ^ 30)); unfold n; rewrite <- Zle_Qle; lia).
  assert (A : (fl (1 # 100) == 5764607523034235 # 576460752303423488)%Q) by (vm_compute; reflexivity).
  assert (B : (n * fl (1 # 100) == n * (5764607523034235 # 576460752303423488))%Q) by (rewrite A; reflexivity).
  pose proof (fl_pos_err (n * fl (1 # 100))) as E1. set (b := fl (n * fl (1 # 100))) in *.
  pose proof (fl_pos_err (b * inject_Z 196000000)) as E2. set (c := fl (b * inject_Z 196000000)) in *.
  change (inject_Z 196000000) with 196000000%Q in E2.
  assert (P1 : (0 <= n * fl (1 # 100))%Q) by (rewrite B; qlra).
  specialize (E1 P1). rewrite B in E1. assert (P2 : (0 <= b * 196000000)%Q) by qlra. specialize (E2 P2).
  assert (C1 : (n * 1960000 - 1 < c)%Q) by qlra. assert (C2 : (c < n * 1960000 + 1)%Q) by qlra.
  clearbody c. clear - C1 C2. pose proof (Qfloor_le c) as F1. pose proof (Qlt_floor c) as F2.
  assert (G1 : (inject_Z (Qfloor c) < inject_Z (navg * 1960000 + 1))%Q) by (rewrite inject_Z_plus, inject_Z_mult; fold n; change (inject_Z 1960000) with 1960000%Q; change (inject_Z 1) with 1%Q; qlra).
  assert (G2 : (inject_Z (navg * 1960000 - 1) < inject_Z (Qfloor c + 1))%Q).
  { unfold Z.sub at 1. rewrite (inject_Z_plus (navg * 1960000)), inject_Z_mult. fold n. change (inject_Z 1960000) with 1960000%Q. change (inject_Z (- (1))) with (- (1))%Q. qlra. }
  rewrite <- Zlt_Qlt in G1, G2. lia.
Qed.

(** C72: the time step the reader expects between integrations, int(tint*fS) in double precision, is the right one or
    one tick too small. *)
Lemma C72_cor_step_proof : forall navg, 1 <= navg < 2 ^ 30 -> cor_skip navg = navg * 1960000 \/ cor_skip navg = navg * 1960000 - 1.
Proof. exact cor_skip_near. Qed.
Definition ef (t v : Z) : cslot cor_frame := CFrame (mkCor 4 1 1 t [Fin v] true).
(** C72: it is one tick too small for integrations of 29 correlator dumps (0.29 s), among others: reading a complete recording raises RuntimeError. *)
Lemma C72_cor_step_refuted_proof : cor_skip 29 = 29 * 1960000 - 1 /\
  let file := [ef 1000 1; ef (1000 + 29 * 1960000) 2; ef (1000 + 58 * 1960000) 3] in
  recording c_tt c_data file 1000 (29 * 1960000) (seq 0 3) 1 /\ in_window c_tt 2 file /\ ids_once c_tt cid (cor_id 1 [4]) file /\
  exists C, cor_cfg_of (stand_list 1) [4] 2 false = Ok C /\
    calls (fun n => cor_read cor_ops C c_data (cor_place 1 [4]) (cor_fpo 1 [4]) (cor_skip 29) false (Some n)) [1; 1]%nat (open_cf C 0 file)
      = [Ok (1%nat, Some 1000, [[[Fin 1]]]); Raise RuntimeError].
Proof.
  split; [vm_compute; reflexivity|]. cbv zeta. split; [|split; [|split]].
  - split.
    + lia.
    + split; auto. intros i Hi. rewrite !grid_seq by lia. lia.
    + reflexivity.
    + intros f Hf. cbn in Hf. repeat (destruct Hf as [<-|Hf]; [split; [reflexivity|intros x [<-|[]]; eauto]|]). contradiction.
    + intros l r H. do 3 (destruct l as [|? l]; [discriminate H|injection H as _ H]). destruct l; discriminate H.
  - intros p f q H. cbn in H.
    do 3 (destruct p as [|? p]; [injection H as <- <-; vm_compute; lia|injection H as <- H]). destruct p; discriminate H.
  - split.
    + intros f Hf. cbn in Hf. repeat (destruct Hf as [<-|Hf]; [do 3 eexists; split; [reflexivity|]; cbn; lia|]). contradiction.
    + vm_compute. nodup.
  - eexists. split; [reflexivity|]. vm_compute. reflexivity.
Qed.

(** C72: read() without a duration, which should load the entire file, raises NameError. *)
Lemma C72_cor_whole_file_refuted_proof : forall stands chans C skip ignore l, nothing_left l = false ->
  cor_read cor_ops C c_data (cor_place stands chans) (cor_fpo stands chans) skip ignore None l = Raise NameError.
Proof. intros stands chans C skip ignore l H. unfold cor_read. rewrite H. auto. Qed.
Lemma C72_cor_whole_file_example_proof : nothing_left (open_cf (mkCfg 2 false 1 [[1; 1; 4]]) 0 [ef 1000 1]) = false.
Proof. reflexivity. Qed.

(** A missing integration is an error, unless time tag errors are ignored: then it is left out. *)
Lemma C72_cor_gap_example_proof : exists C, cor_cfg_of (stand_list 1) [4] 2 false = Ok C /\
  let file := [ef 1000 1; ef (1000 + 50 * 1960000) 2; ef (1000 + 150 * 1960000) 3; ef (1000 + 200 * 1960000) 4] in
  cor_read cor_ops C c_data (cor_place 1 [4]) (cor_fpo 1 [4]) (cor_skip 50) false (Some 4%nat) (open_cf C 0 file) = Raise RuntimeError /\
  calls (fun n => cor_read cor_ops C c_data (cor_place 1 [4]) (cor_fpo 1 [4]) (cor_skip 50) true (Some n)) [4]%nat (open_cf C 0 file)
    = [Ok (4%nat, Some 1000, [[[Fin 1]; [Fin 2]; [Fin 3]; [Fin 4]]])].
Proof. eexists. split; [reflexivity|]. cbv zeta. split; vm_compute; reflexivity. Qed.

(** C72: a call that returns, returns at least one integration; whatever the file holds, a file with none left in it gives EOFError or another error. *)
Lemma C72_cor_never_empty_proof : forall C stands chans skip ignore n l l' k t rows, (1 <= n)%nat ->
  cor_read cor_ops C c_data (cor_place stands chans) (cor_fpo stands chans) skip ignore (Some n) l = Ok (l', (k, t, rows)) -> (1 <= k)%nat.
Proof.
  intros C stands chans skip ignore n l l' k t rows Hn H. unfold cor_read in H. destruct (nothing_left l); [discriminate H|].
  match type of H with bind ?x _ = _ => destruct x as [[[[[file s] a] nsets] eof]|e]; [|discriminate H] end. cbn [bind] in H. unfold finish in H.
  match type of H with bind ?x _ = _ => destruct x as [[[s' a'] nsets']|e]; [|discriminate H] end. cbn [bind] in H.
  destruct (Nat.eqb_spec nsets' 0) as [E|E]; cbn [andb] in H.
  - destruct (Nat.eqb_spec n 0) as [E0|E0]; [lia|discriminate H].
  - injection H as _ <- _ _. lia.
Qed.
(** A file with nothing but a broken frame and a cut-off one in it. *)
Lemma C72_cor_never_empty_example_proof : exists C, cor_cfg_of (stand_list 1) [4] 2 false = Ok C /\
  (exists l', cor_read cor_ops C c_data (cor_place 1 [4]) (cor_fpo 1 [4]) 1960000 false (Some 1%nat) (open_cf C 0 [ef 1000 1; CTail]) = Ok (l', (1%nat, Some 1000, [[[Fin 1]]]))) /\
  cor_read cor_ops C c_data (cor_place 1 [4]) (cor_fpo 1 [4]) 1960000 false (Some 1%nat) (open_cf C 0 [CBad; CTail]) = Raise EOFError.
Proof. eexists. split; [reflexivity|]. split; [eexists|]; vm_compute; reflexivity. Qed.

(** ** C73 *)
(** C73: a TBX recording whose spectra first appear in time order, with single frames late or missing and, in recordings with the
    usual step of 8192, gaps the reader can fill, is returned by any sequence of read() calls (of given numbers of spectra) spectrum by spectrum, once each,
    in time order, with zeros where a frame is missing; then comes EOFError. *)
Lemma C73_tbx_in_order_proof : forall chans nseg re C skip autofill ignore file t0 grid L pos ns, NoDup chans -> chans <> [] -> (2 <= nseg)%nat ->
  tbx_cfg chans nseg re = Ok C -> skip <= 8192 ->
  recording x_tt x_data file t0 skip grid L -> in_window x_tt nseg file -> ids_once x_tt xid (tbx_id chans) file ->
  gaps_fillable nseg (length chans) skip autofill grid file -> short_breaks 40000 file ->
  Forall (fun n => (1 <= n)%nat) ns ->
  in_order x_tt xid x_data (tbx_id chans) (length chans) (tbx_row chans) file t0 skip L (S (last grid 0%nat)) 0 ns
    (calls (fun n l => if nothing_left l then Raise EOFError else
                       tbx_read_n tbx_ops C x_data (tbx_place chans) (length chans) skip ignore tbx_zero_at autofill n l) ns (open_cf C pos file)).
Proof.
  intros chans nseg re C skip autofill ignore file t0 grid L pos ns HN HE HG HC HK R W I G B Hns.
  destruct (tbx_kind _ _ _ _ HN HC) as (C1 & C2 & C3 & C4 & C5 & C6).
  assert (LW : lawful tbx_ops C) by (apply (tbx_lawful chans nseg re); auto; lia).
  apply (in_order_ext _ _ _ _ (fun i => In i (c_possible C))); auto.
  rewrite <- C1 in W, HG, G.
  apply (tbx_in_order tbx_ops C x_data (tbx_place chans) (tbx_row chans) (length chans) skip ignore tbx_zero_at autofill LW C3) with (t0 := t0) (grid := grid) (L := L); auto.
  - intros f Hf. apply C4. apply C2. auto.
  - intros i Hi. apply C5. apply C2. auto.
  - intros i j Hi Hj. apply C6; apply C2; auto.
  - eapply ids_once_ext; [|exact I]. intro i. symmetry. auto.
  - destruct chans; [congruence|]. cbn. lia.
  - lia.
Qed.
(** C73: the time step the reader expects is the right one for both kinds of data, NDP's and those converted from LWA-SV. *)
Lemma C73_tbx_step_proof : tbx_skip 8192 = 8192 /\ tbx_skip 7840 = 7840.
Proof. split; vm_compute; reflexivity. Qed.
(** C73: for a complete recording read from the start, read(duration) returns the spectra the duration asks for and read() all that are left. *)
Lemma C73_tbx_durations_proof : forall chans nseg re C skip autofill ignore file t0 N L ws, NoDup chans -> chans <> [] -> (2 <= nseg)%nat ->
  tbx_cfg chans nseg re = Ok C -> skip <= 8192 ->
  recording x_tt x_data file t0 skip (seq 0 N) L -> in_window x_tt nseg file -> ids_once x_tt xid (tbx_id chans) file ->
  short_breaks 40000 file -> length (recorded file) = (N * length chans)%nat ->
  in_order x_tt xid x_data (tbx_id chans) (length chans) (tbx_row chans) file t0 skip L N 0
    (map (fun w => match w with None => N | Some w => Z.to_nat (Z.max w 1) end) ws)
    (calls (tbx_read tbx_ops C x_data (tbx_place chans) (length chans) skip ignore tbx_zero_at autofill (Z.of_nat (length file))) ws (open_cf C 0 file)).
Proof.
  intros chans nseg re C skip autofill ignore file t0 N L ws HN HE HG HC HK R W I B FULL.
  destruct (tbx_kind _ _ _ _ HN HC) as (C1 & C2 & C3 & C4 & C5 & C6).
  assert (LW : lawful tbx_ops C) by (apply (tbx_lawful chans nseg re); auto; lia).
  pose proof (recording_seq _ _ _ _ _ _ _ _ R) as N1.
  apply (in_order_ext _ _ _ _ (fun i => In i (c_possible C))); auto.
  rewrite <- C1 in W, HG. pose proof (last_seq N N1) as LS. fold (total (seq 0 N)) in LS.
  generalize (eq_sym LS). generalize N at 1 3 4. intros T ->.
  apply (tbx_durations_in_order tbx_ops C x_data (tbx_place chans) (tbx_row chans) (length chans) skip ignore tbx_zero_at autofill LW C3) with (t0 := t0) (grid := seq 0 N) (L := L) (pos := 0); auto.
  - intros f Hf. apply C4. apply C2. auto.
  - intros i Hi. apply C5. apply C2. auto.
  - intros i j Hi Hj. apply C6; apply C2; auto.
  - eapply ids_once_ext; [|exact I]. intro i. symmetry. auto.
  - destruct chans; [congruence|]. cbn. lia.
  - lia.
  - intros i Hi Hg. rewrite !grid_seq in Hg by lia. congruence.
  - rewrite seq_length. auto.
  - apply grid_seq.
Qed.
(** Two channel blocks, buffer of 2: a gap of two spectra, a late frame, a missing frame, bad frames and a cut-off end. *)
Definition ex (k c v : Z) : cslot tbx_frame := CFrame (mkTbx c (500 + k * 8192) [Fin v] true).
Definition ex_tbx : list (cslot tbx_frame) :=
  [ex 0 4 1; ex 0 8 2; CBad; ex 3 8 3; COther; ex 3 4 4; ex 4 4 5; ex 4 8 6; ex 5 8 7; ex 6 4 8; ex 6 8 9; ex 7 8 10; ex 7 4 11; CTail].
Definition ex_full : list (cslot tbx_frame) := [ex 0 4 1; ex 0 8 2; CBad; ex 1 8 3; ex 2 8 4; ex 1 4 5; ex 2 4 6].
Ltac split3 H l n := do n (destruct l as [|? l]; [discriminate H|injection H as _ H]).
Lemma short_len : forall F lim (file : list (cslot F)), Z.of_nat (length file) <= lim -> short_breaks lim file.
Proof. intros F lim file H l m r -> _. rewrite !app_length in H. lia. Qed.
Lemma C73_tbx_in_order_example_proof : exists C, tbx_cfg [4; 8] 2 true = Ok C /\
  recording x_tt x_data ex_tbx 500 8192 [0; 3; 4; 5; 6; 7]%nat 1 /\ in_window x_tt 2 ex_tbx /\ ids_once x_tt xid (tbx_id [4; 8]) ex_tbx /\
  gaps_fillable 2 2 8192 50 [0; 3; 4; 5; 6; 7]%nat ex_tbx /\ short_breaks 40000 ex_tbx /\
  calls (fun n l => if nothing_left l then Raise EOFError else tbx_read_n tbx_ops C x_data (tbx_place [4; 8]) 2 8192 false tbx_zero_at 50 n l) [3; 3; 4; 1]%nat (open_cf C 0 ex_tbx) =
   [Ok (3%nat, Some 500, [[[Fin 1]; [Fin 0]; [Fin 0]]; [[Fin 2]; [Fin 0]; [Fin 0]]]);
    Ok (3%nat, Some (500 + 3 * 8192), [[[Fin 4]; [Fin 5]; [Fin 0]]; [[Fin 3]; [Fin 6]; [Fin 7]]]);
    Ok (2%nat, Some (500 + 6 * 8192), [[[Fin 8]; [Fin 11]]; [[Fin 9]; [Fin 10]]]); Raise EOFError].
Proof.
  eexists. split; [reflexivity|]. split; [|split; [|split; [|split; [|split]]]].
  - split.
    + lia.
    + split; auto. intros i Hi. cbn in Hi. do 5 (destruct i as [|i]; [cbn; lia|]). lia.
    + reflexivity.
    + intros f Hf. cbn in Hf. repeat (destruct Hf as [<-|Hf]; [split; [reflexivity|intros x [<-|[]]; eauto]|]). contradiction.
    + intros l r H. unfold ex_tbx in H.
      do 13 (destruct l as [|? l]; [discriminate H|injection H as _ H]). destruct l as [|? l]; [injection H as H; auto|].
      injection H as _ H. destruct l; discriminate H.
  - intros p f q H. cbn in H.
    do 11 (destruct p as [|? p]; [injection H as <- <-; vm_compute; lia|injection H as <- H]). destruct p; discriminate H.
  - split.
    + intros f Hf. cbn in Hf. repeat (destruct Hf as [<-|Hf]; [eexists; split; [reflexivity|]; cbn; lia|]). contradiction.
    + vm_compute. nodup.
  - intros i Hi Hg. cbn in Hi. destruct i as [|i].
    + split; [auto|]. split; [cbn; lia|]. split; [cbn; lia|].
      intros l m r H Hm. unfold ex_tbx in H. destruct m as [|x [|y [|]]]; try discriminate Hm.
      do 13 (destruct l as [|? l]; [injection H as <- <- _; eexists; first [left; reflexivity|right; left; reflexivity]|cbn [app] in H; injection H; clear H; intros H _]).
      destruct l as [|? l]; [discriminate H|]. destruct l; discriminate H.
    + do 4 (destruct i as [|i]; [cbn in Hg; congruence|]). lia.
  - apply short_len. cbn. lia.
  - vm_compute. reflexivity.
Qed.
Lemma C73_tbx_durations_example_proof : exists C, tbx_cfg [4; 8] 3 true = Ok C /\
  recording x_tt x_data ex_full 500 8192 (seq 0 3) 1 /\ in_window x_tt 3 ex_full /\ ids_once x_tt xid (tbx_id [4; 8]) ex_full /\
  short_breaks 40000 ex_full /\ length (recorded ex_full) = (3 * length [4; 8])%nat /\
  calls (tbx_read tbx_ops C x_data (tbx_place [4; 8]) 2 8192 false tbx_zero_at 50 (Z.of_nat (length ex_full))) [Some 0; None; Some 5] (open_cf C 0 ex_full) =
   [Ok (1%nat, Some 500, [[[Fin 1]]; [[Fin 2]]]);
    Ok (2%nat, Some (500 + 8192), [[[Fin 5]; [Fin 6]]; [[Fin 3]; [Fin 4]]]); Raise EOFError].
Proof.
  eexists. split; [reflexivity|]. split; [|split; [|split; [|split; [|split]]]].
  - split.
    + lia.
    + split; auto. intros i Hi. rewrite !grid_seq by lia. lia.
    + reflexivity.
    + intros f Hf. cbn in Hf. repeat (destruct Hf as [<-|Hf]; [split; [reflexivity|intros x [<-|[]]; eauto]|]). contradiction.
    + intros l r H. unfold ex_full in H.
      do 7 (destruct l as [|? l]; [discriminate H|injection H as _ H]). destruct l; discriminate H.
  - intros p f q H. cbn in H.
    do 6 (destruct p as [|? p]; [injection H as <- <-; vm_compute; lia|injection H as <- H]). destruct p; discriminate H.
  - split.
    + intros f Hf. cbn in Hf. repeat (destruct Hf as [<-|Hf]; [eexists; split; [reflexivity|]; cbn; lia|]). contradiction.
    + vm_compute. nodup.
  - apply short_len. cbn. lia.
  - reflexivity.
  - vm_compute. reflexivity.
Qed.

(** C73: after offset() the number of frames is counted from the new position but compared with the position in the
    whole file: from the second half of the file on, read() raises ValueError. *)
Lemma C73_tbx_after_offset_refuted_proof : forall chans C skip autofill ignore pos rest want, (1 <= length chans)%nat -> rest <> [] ->
  Z.of_nat (length rest) < pos ->
  tbx_read tbx_ops C x_data (tbx_place chans) (length chans) skip ignore tbx_zero_at autofill (Z.of_nat (length rest)) want (open_cf C pos rest) = Raise ValueError.
Proof.
  intros chans C skip autofill ignore pos rest want HC HR HP. unfold tbx_read, nothing_left, open_cf. cbn [cf_left cf_buf].
  destruct rest as [|x rest]; [congruence|]. unfold tbx_frame_count. cbn [cf_pos cf_buf init s_buf length].
  set (q := (Z.of_nat (S (length rest)) - pos) / Z.of_nat (length chans)).
  assert (q < 0) by (apply Z.div_lt_upper_bound; [lia|]; cbn [length] in HP; lia).
  match goal with |- context [(?a <? 0)] => destruct (Z.ltb_spec a 0); [auto|lia] end.
Qed.
Lemma C73_tbx_after_offset_example_proof : (1 <= length [4; 8])%nat /\ [ex 3 4 1; ex 3 8 2] <> [] /\ Z.of_nat (length [ex 3 4 1; ex 3 8 2]) < 6.
Proof. cbn. repeat split; try lia. discriminate. Qed.

(** C73: a gap in data with another step (7840 for data converted from LWA-SV) is not filled: RuntimeError. *)
Lemma C73_tbx_other_step_refuted_proof : exists C, tbx_cfg [4] 2 true = Ok C /\
  let f k := CFrame (mkTbx 4 (500 + k * 7840) [Fin 1] true) in
  let file := map f [0; 1; 3; 4; 5; 6; 7; 8] in
  recording x_tt x_data file 500 7840 [0; 1; 3; 4; 5; 6; 7; 8]%nat 1 /\
  tbx_read tbx_ops C x_data (tbx_place [4]) 1 7840 false tbx_zero_at 50 8 None (open_cf C 0 file) = Raise RuntimeError.
Proof.
  eexists. split; [reflexivity|]. cbv zeta. split.
  - split.
    + lia.
    + split; auto. intros i Hi. cbn in Hi. do 7 (destruct i as [|i]; [cbn; lia|]). lia.
    + reflexivity.
    + intros x Hf. cbn in Hf. repeat (destruct Hf as [<-|Hf]; [split; [reflexivity|intros y [<-|[]]; eauto]|]). contradiction.
    + intros l r H. do 8 (destruct l as [|? l]; [discriminate H|injection H as _ H]). destruct l; discriminate H.
  - vm_compute. reflexivity.
Qed.

(** C73: with frames missing, read() without a duration does not load the entire file, and a file with less than one
    spectrum in it gives empty results for ever, never EOFError. *)
Lemma C73_tbx_whole_file_refuted_proof : exists C, tbx_cfg [4; 8] 2 true = Ok C /\
  calls (tbx_read tbx_ops C x_data (tbx_place [4; 8]) 2 8192 false tbx_zero_at 50 4) [None; None; None] (open_cf C 0 [ex 0 4 1; ex 1 8 2; ex 2 4 3; ex 2 8 4])
    = [Ok (2%nat, Some 500, [[[Fin 1]; [Fin 0]]; [[Fin 0]; [Fin 2]]]); Ok (1%nat, Some (500 + 2 * 8192), [[[Fin 3]]; [[Fin 4]]]); Raise EOFError] /\
  tbx_read tbx_ops C x_data (tbx_place [4; 8]) 2 8192 false tbx_zero_at 50 1 None (open_cf C 0 [ex 0 4 1])
    = Ok (mkCF [ex 0 4 1] 0 (init C 0) (Some 0), (0%nat, None, [[]; []])).
Proof. eexists. split; [reflexivity|]. split; vm_compute; reflexivity. Qed.
