From Coq Require Import Ascii String List ZArith QArith Qcanon Qround Bool Lia Permutation.
From Verif Require Import LibList M_Py M_Base P_Base M_Corr M_CorrPy S_Corr P_Corr P_CorrSpec P_CorrPsd P_CorrPick P_CorrF P_CorrX P_CorrFX P_CorrAl P_CorrT P_CorrXT P_CorrY.
Import ListNotations.
Open Scope Z_scope.

(** C79: XMaster.  When the stands of each polarization are distinct (and listed in the same order unless auto-correlations are kept), the row of every baseline is, channel
    by channel, the mean over time of the first signal times the conjugate of the second, each rotated by the delay of its antenna
    relative to the smallest delay at the middle frequency. *)
Lemma C79_correlation_proof : forall E rgain freq nChan nTime (signals : list (list (list C))) ants auto c1 c2 pol1 pol2 (gain : bool) orderX baselines out (d : ant),
  0 < nChan -> 0 <= nTime -> zlen signals = zlen ants -> pol_number c1 = Some pol1 -> pol_number c2 = Some pol2 ->
  let I1 := positions (fun a => a_pol a =? pol1) ants in let I2 := positions (fun a => a_pol a =? pol2) ants in
  let A i := znth d i ants in
  NoDup (map (fun i => a_stand (A i)) I1) -> NoDup (map (fun i => a_stand (A i)) I2) ->
  (auto = false -> forall i j, 0 <= i < zlen I1 -> 0 <= j < zlen I1 -> (a_stand (A (znth 0 i I1)) = a_stand (A (znth 0 j I2)) <-> i = j)) ->
  x_master E rgain freq nChan nTime signals ants auto (String c1 (String c2 "")) gain orderX = Ok (baselines, out) ->
  zlen I2 = zlen I1 /\ baselines = map (fun q => (A (znth 0 (fst q) I1), A (znth 0 (snd q) I2))) (pair_list auto (zlen I1)) /\ zlen out = zlen baselines /\
  (0 < zlen baselines -> nChan = zlen freq) /\
  exists tmin, least (map (fun i => a_delay (A i) (znth 0%Qc (zlen freq / 2) freq)) (I1 ++ I2)) tmin /\
    (Permutation orderX (upto 0 (zlen (pair_list true (zlen I1)))) ->
     forall r i j k, 0 <= r < zlen baselines -> znth (0, 0) r (pair_list auto (zlen I1)) = (i, j) -> 0 <= k < nChan ->
     let f := znth 0%Qc k freq in
     let turned p t := c_times (znth (0%Qc, 0%Qc) t (znth [] k (znth [] p signals))) (E (f * (a_delay (A p) f - tmin))%Qc) in
     let p := znth 0 i I1 in let q := znth 0 j I2 in
     znth None k (znth [] r out) =
     option_map (fun z => if gain then c_times z (rgain (A p) (A q) f, 0%Qc) else z)
       (mean_c (map (fun t => times_conj (turned p t) (turned q t)) (upto 0 nTime)))).
Proof.
  intros E rgain freq nChan nTime signals ants auto c1 c2 pol1 pol2 gain orderX baselines out d Hc Ht Hsa Hp1 Hp2 I1 I2 A ND1 ND2 HS H.
  assert (Etp : two_pols (String c1 (String c2 "")) = Ok (pol1, pol2)) by (apply two_pols_letters; assumption).
  unfold x_master in H. rewrite Etp in H. clear Etp Hp1 Hp2. cbn [bind] in H. cbv zeta in H. rewrite !index_positions in H. fold I1 I2 in H.
  set (ants1 := of_pol pol1 ants) in *. set (ants2 := of_pol pol2 ants) in *.
  assert (EA1 : ants1 = map A I1) by (symmetry; apply positions_pick). assert (EA2 : ants2 = map A I2) by (symmetry; apply positions_pick).
  assert (LA1 : zlen ants1 = zlen I1) by (rewrite EA1; apply zlen_map). assert (LA2 : zlen ants2 = zlen I2) by (rewrite EA2; apply zlen_map).
  assert (N1 : forall i, 0 <= i < zlen I1 -> znth d i ants1 = A (znth 0 i I1)) by (intros i Hi; rewrite EA1; apply (znth_map _ _ _ 0); exact Hi).
  assert (N2 : forall i, 0 <= i < zlen I2 -> znth d i ants2 = A (znth 0 i I2)) by (intros i Hi; rewrite EA2; apply (znth_map _ _ _ 0); exact Hi).
  destruct (get_baselines ants1 (Some ants2) auto) as [bl|] eqn:Ebl; [|discriminate]. cbn [bind] in H.
  destruct (delays_of freq ants1 ants2) as [[dl1 dl2]|] eqn:Edl; [|discriminate]. cbn [bind] in H.
  assert (Hrow : forall J, (forall i, In i J -> 0 <= i < zlen ants) -> take_rows signals J = Ok (map (fun i => znth [] i signals) J)).
  { intros J HJ. unfold take_rows. apply collect_ok. intros i Hi. apply P_CorrPick.py_index_in. rewrite Hsa. apply HJ. exact Hi. }
  assert (B1 : forall i, In i I1 -> 0 <= i < zlen ants) by (intros i Hi; apply positions_in in Hi; exact Hi).
  assert (B2 : forall i, In i I2 -> 0 <= i < zlen ants) by (intros i Hi; apply positions_in in Hi; exact Hi).
  rewrite (Hrow I1 B1) in H. cbn [bind] in H.
  set (rows1 := map (fun i => znth [] i signals) I1) in *. set (rows2 := map (fun i => znth [] i signals) I2) in *.
  assert (E2 : (if pol2 =? pol1 then Ok rows1 else take_rows signals I2) = Ok rows2).
  { destruct (Z.eqb_spec pol2 pol1) as [Ep|Ep]; [|apply Hrow; exact B2]. unfold rows1, rows2, I1, I2. rewrite Ep. reflexivity. }
  rewrite E2 in H. cbn [bind] in H. clear E2.
  assert (LR1 : zlen rows1 = zlen I1) by (apply zlen_map). assert (LR2 : zlen rows2 = zlen I2) by (apply zlen_map).
  destruct (Z.eqb_spec (zlen rows2) (zlen rows1)) as [EI|]; [|discriminate]. cbn [negb] in H. rewrite LR1, LR2 in EI.
  destruct (delays_of_ok _ _ _ _ _ d Edl) as ([Npos Nle] & tmin & Hleast & D1 & D2).
  destruct (kept ants1 ants2 auto) as [keep|] eqn:Ek; [|discriminate]. cbn [bind] in H.
  destruct (kept_pairs ants1 ants2 auto keep d) as [K1 K2]; [lia| |exact Ek|].
  { intros Ha i j Hi Hj. rewrite N1, N2 by lia. apply HS; [exact Ha|lia|lia]. }
  rewrite (get_baselines_ok d) in Ebl by lia. assert (Ebl' : bl = map (fun q => (A (znth 0 (fst q) I1), A (znth 0 (snd q) I2))) (pair_list auto (zlen I1))).
  { injection Ebl as <-. rewrite pair_list_pairs, LA1. apply map_ext_in. intros [i j] Hij. apply pairs_in in Hij. cbn [fst snd]. rewrite N1, N2 by lia. reflexivity. }
  destruct (collect _) as [rows|] eqn:Ec; [|discriminate]. cbn [bind] in H. injection H as <- <-.
  destruct (collect_inv _ _ (0, 0) [] _ _ _ Ec) as [C1 C2]. clear Ec.
  assert (Lkeep : zlen keep = zlen (pair_list auto (zlen I1))) by (rewrite pair_list_pairs, <- LA1, <- K1, zlen_map; reflexivity).
  assert (Lbl : zlen bl = zlen (pair_list auto (zlen I1))) by (rewrite Ebl'; apply zlen_map).
  assert (Lc : zlen (combine (range 0 (zlen keep)) keep) = zlen keep) by apply zlen_combine_range.
  rewrite Lc in C1, C2.
  assert (G : forall r i j, 0 <= r < zlen bl -> znth (0, 0) r (pair_list auto (zlen I1)) = (i, j) ->
    nChan = zlen freq /\ 0 <= i < zlen I1 /\ 0 <= j < zlen I1 /\
    znth [] r rows = map (fun k => times (rotation E rgain freq (dl1 i) (dl2 j) (A (znth 0 i I1), A (znth 0 j I2)) gain k)
      (xengine2 (zlen rows1) nChan nTime (cube nChan nTime rows1) (cube nChan nTime rows2) (fun _ => 1) (fun _ => 1) orderX (znth 0 r keep * nChan + k))) (range 0 nChan)).
  { intros r i j Hr Hij.
    assert (Hb : 0 <= i < zlen I1 /\ 0 <= j < zlen I1).
    { assert (HI : In (i, j) (pair_list auto (zlen I1))) by (rewrite <- Hij; apply znth_In; lia). rewrite pair_list_pairs in HI. apply pairs_in in HI. lia. }
    destruct Hb as [Hi Hj]. specialize (C2 r ltac:(lia)). rewrite combine_range_at in C2 by lia. cbn [fst snd] in C2.
    unfold label in C2. rewrite (P_CorrPick.py_index_in _ (d, d)) in C2 by lia. cbn [bind] in C2.
    assert (Eb : znth (d, d) r bl = (A (znth 0 i I1), A (znth 0 j I2))) by (rewrite Ebl', (znth_map _ _ _ (0, 0)) by lia; rewrite Hij; reflexivity).
    rewrite Eb in C2. cbn [fst snd] in C2.
    rewrite <- N1 in C2 at 1 by lia. rewrite (delay_of_stand_at ants1 dl1 i d) in C2;
      [|rewrite EA1, map_map; exact ND1|lia].
    cbn [bind] in C2. rewrite ztake_all in C2 by lia. rewrite <- N2 in C2 at 1 by lia. rewrite (delay_of_stand_at ants2 dl2 j d) in C2;
      [|rewrite EA2, map_map; exact ND2|lia].
    cbn [bind] in C2. destruct (Z.eqb_spec nChan (zlen freq)) as [En|]; [|discriminate]. cbn [negb] in C2. injection C2 as C2.
    split; [exact En|]. split; [exact Hi|]. split; [exact Hj|]. symmetry. exact C2. }
  split; [exact EI|]. split; [exact Ebl'|]. split; [lia|]. split.
  { intro Hpos. destruct (znth (0, 0) 0 (pair_list auto (zlen I1))) as [i j] eqn:Eij. destruct (G 0 i j ltac:(lia) Eij) as [En _]. exact En. }
  exists tmin. split.
  { rewrite ztake_all in Hleast by lia. rewrite EA1, EA2, <- map_app, map_map in Hleast. exact Hleast. }
  intros O r i j k Hr Hij Hk. cbv zeta. destruct (G r i j Hr Hij) as (En & Hi & Hj & Er). rewrite Er.
  rewrite (znth_map _ _ _ 0) by (rewrite range_len; lia). rewrite znth_range' by lia. replace (0 + k) with k by lia.
  assert (Hkr : In (znth 0 r keep) keep) by (apply znth_In; lia).
  rewrite xengine2_at; [|rewrite mapper_all, LR1, <- (pair_list_pairs true), <- upto_range; exact O|rewrite mapper_all, LR1, <- LA1; apply K2; exact Hkr|exact Hk].
  assert (Hm : znth (0, 0) (znth 0 r keep) (mapper (zlen rows1)) = (i, j)).
  { rewrite <- Hij, mapper_all, LR1. rewrite pair_list_pairs, <- LA1, <- K1. rewrite (znth_map _ _ _ 0) by lia. reflexivity. }
  rewrite Hm. rewrite x_cell by assumption.
  unfold rows1, rows2. rewrite !(znth_map _ _ _ 0) by lia. unfold rotation. rewrite D1, D2 by lia. rewrite N1, N2 by lia. cbn [fst snd].
  rewrite upto_range. exact (rotated_mean gain _ _ _ (fun t => znth c0 t (znth [] k (znth [] (znth 0 i I1) signals))) (fun t => znth c0 t (znth [] k (znth [] (znth 0 j I2) signals))) (range 0 nTime)).
Qed.

(** The results as fractions. *)
Definition shown79 (r : res (list (ant * ant) * list (list (option C)))) : res (list (Z * Z) * list (list (option (Q * Q)))) :=
  match r with
  | Raise e => Raise e
  | Ok (b, o) => Ok (map (fun q => (a_stand (fst q), a_stand (snd q))) b, map (map (option_map (fun z => (this (fst z), this (snd z))))) o)
  end.
Definition run79 (nTime : Z) (signals : list (list (list C))) (ants : list ant) (auto : bool) (pol : string) (order : list Z) :=
  shown79 (x_master quarter (fun _ _ _ => qz 2) [qz 1; qz 2] 2 nTime signals ants auto pol true order).
Definition sig79 : list (list (list C)) := [[[qi 1 0; qi 2 1]; [qi 1 0; qi 0 1]]; [[qi 0 (-1); qi 1 (-2)]; [qi (-1) 0; qi 0 (-1)]]].
(** Two antennas of which the second receives the signal of the first a quarter of a second later. *)
Lemma C79_example_proof :
  run79 2 sig79 [late 0 7 0; late 0 3 1] true "XX" [2; 0; 1] =
  Ok ([(7, 7); (7, 3); (3, 3)], [[Some (6%Q, 0%Q); Some (2%Q, 0%Q)]; [Some (6%Q, 0%Q); Some (2%Q, 0%Q)]; [Some (6%Q, 0%Q); Some (2%Q, 0%Q)]]).
Proof. vm_compute. reflexivity. Qed.
(** C79: no samples, no numbers. *)
Lemma C79_no_samples_example_proof :
  run79 0 [[[]; []]; [[]; []]] [late 0 7 0; late 0 3 1] false "XX" [2; 0; 1] = Ok ([(7, 3)], [[None; None]]).
Proof. vm_compute. reflexivity. Qed.
(** C79: the delays are kept by stand.  Two X antennas of one stand are both rotated by the delay of the second: the same data, delayed as the antennas say, are
    rotated apart. *)
Lemma C79_one_stand_refuted_proof :
  run79 2 sig79 [late 0 7 0; late 0 7 1] true "XX" [2; 0; 1] =
  Ok ([(7, 7); (7, 7); (7, 7)], [[Some (6%Q, 0%Q); Some (2%Q, 0%Q)]; [Some (0%Q, 6%Q); Some ((-2)%Q, 0%Q)]; [Some (6%Q, 0%Q); Some (2%Q, 0%Q)]]).
Proof. vm_compute. reflexivity. Qed.
