From Coq Require Import Ascii String List ZArith QArith Qcanon Qround Bool Lia Permutation.
From Verif Require Import LibList M_Py M_Base P_Base M_Corr M_CorrPy S_Corr P_Corr P_CorrSpec P_CorrPsd P_CorrPick P_CorrF P_CorrX P_CorrFX P_CorrAl P_CorrY P_CorrZ P_CorrT P_CorrXT P_CorrYT.
Import ListNotations.
Open Scope Z_scope.

(** C80: FXStokes without clipping and gain correction.  I and Q of every baseline, and all four parameters of the auto-correlations, are those of the correlations of the
    X and Y signals.  Missing: U and V of two different stands (what is returned uses the conjugate of the correlation of X1 with Y2 for that of Y1 with X2),
    clipped data and gain correction, where the code does not do what it should: C80_uv_refuted, C80_clip_refuted, C80_gain_refuted. *)
Lemma C80_stokes_partial_proof : forall F pw E norm rgain n signals ants (cplx : bool) LFFT ov auto window (pfb : bool) rate f0 s baselines freq out (d : ant) step,
  let L := if cplx then LFFT else 2 * LFFT in
  0 < LFFT -> 0 <= n -> (0 < rate)%Qc -> 0 < ov -> L = step * ov -> (forall x : list C, In x signals -> zlen x = n) -> zlen signals = zlen ants ->
  let I1 := positions (fun a => a_pol a =? 0) ants in let I2 := positions (fun a => a_pol a =? 1) ants in
  let A i := znth d i ants in
  (auto = false -> forall i j, 0 <= i < zlen I1 -> 0 <= j < zlen I1 -> (a_stand (A (znth 0 i I1)) = a_stand (A (znth 0 j I2)) <-> i = j)) ->
  fx_stokes F pw E norm rgain n signals ants cplx LFFT ov auto window pfb rate f0 false 0 s = Some (Ok (baselines, freq, out)) ->
  zlen I2 = zlen I1 /\ baselines = map (fun q => (A (znth 0 (fst q) I1), A (znth 0 (snd q) I2))) (pair_list auto (zlen I1)) /\ zlen out = 4 /\
  (forall p, 0 <= p < 4 -> zlen (znth [] p out) = zlen baselines) /\
  zlen freq = LFFT /\ (forall k, 0 <= k < LFFT -> znth 0%Qc k freq = if cplx then (f0 + bin_freq LFFT rate (shifted_bin LFFT k))%Qc else bin_freq (2 * LFFT) rate k) /\
  exists tmin dmax, let fr := znth 0%Qc (LFFT / 2) freq in let tau i f := (a_delay (A i) f - tmin)%Qc in
    least (map (fun i => a_delay (A i) fr) (I1 ++ I2)) tmin /\ greatest (map (fun i => lag rate fr (tau i)) I1) dmax /\
    let m := zlen (starts L (n - dmax) step) in
    (Permutation (ord1 s) (upto 0 (zlen I1 * m)) -> Permutation (ord2 s) (upto 0 (zlen I1 * m)) -> Permutation (ordX s) (upto 0 (zlen (pair_list true (zlen I1)))) ->
     forall p r i j k, 0 <= p < 4 -> 0 <= r < zlen baselines -> znth (0, 0) r (pair_list auto (zlen I1)) = (i, j) -> 0 <= k < LFFT ->
     let corr u v := correlation E (norm L) (F (negb cplx) LFFT) L (if pfb then 4 else 1) (if pfb then Some (pw (L * 4)) else match window with Some w => Some (w L) | None => None end)
          0 step rate fr dmax (znth 0%Qc k freq) (if cplx then shifted_bin LFFT k else k) (znth [] u signals) (znth [] v signals) (tau u) (tau v) in
     let x1 := znth 0 i I1 in let y1 := znth 0 i I2 in let x2 := znth 0 j I1 in let y2 := znth 0 j I2 in
     (p < 2 \/ i = j -> znth None k (znth [] r (znth [] p out)) = stokes_vis p (corr x1 x2) (corr x1 y2) (corr y1 x2) (corr y1 y2)) /\
     znth None k (znth [] r (znth [] p out)) = stokes_vis p (corr x1 x2) (corr x1 y2) (option_map (fun z => (fst z, (- snd z)%Qc)) (corr x1 y2)) (corr y1 y2)).
Proof.
  intros F pw E norm rgain n signals ants cplx LFFT ov auto window pfb rate f0 s baselines freq out d step L
    HLF Hn Hrate Hov Hstep Hsig Hsa I1 I2 A HS H.
  unfold fx_stokes in H. cbv zeta in H. rewrite !index_positions in H. fold I1 I2 in H.
  set (ants1 := of_pol 0 ants) in *. set (ants2 := of_pol 1 ants) in *.
  assert (EA1 : ants1 = map A I1) by (symmetry; apply positions_pick). assert (EA2 : ants2 = map A I2) by (symmetry; apply positions_pick).
  assert (LA1 : zlen ants1 = zlen I1) by (rewrite EA1; apply zlen_map). assert (LA2 : zlen ants2 = zlen I2) by (rewrite EA2; apply zlen_map).
  assert (N1 : forall i, 0 <= i < zlen I1 -> znth d i ants1 = A (znth 0 i I1)) by (intros i Hi; rewrite EA1; apply (znth_map _ _ _ 0); exact Hi).
  assert (N2 : forall i, 0 <= i < zlen I2 -> znth d i ants2 = A (znth 0 i I2)) by (intros i Hi; rewrite EA2; apply (znth_map _ _ _ 0); exact Hi).
  destruct (get_baselines ants1 (Some ants2) auto) as [bl|] eqn:Ebl; [|discriminate].
  set (fq := frequencies cplx LFFT rate f0) in *.
  destruct (delays_of fq ants1 ants2) as [[dl1 dl2]|] eqn:Edl; [|discriminate].
  destruct ((match window with Some _ => true | None => false end) && pfb); [discriminate|].
  assert (Hrow : forall J, (forall i, In i J -> 0 <= i < zlen ants) -> take_rows signals J = Ok (map (fun i => znth [] i signals) J)).
  { intros J HJ. unfold take_rows. apply collect_ok. intros i Hi. apply P_CorrPick.py_index_in. rewrite Hsa. apply HJ. exact Hi. }
  assert (B1 : forall i, In i I1 -> 0 <= i < zlen ants) by (intros i Hi; apply positions_in in Hi; exact Hi).
  assert (B2 : forall i, In i I2 -> 0 <= i < zlen ants) by (intros i Hi; apply positions_in in Hi; exact Hi).
  rewrite (Hrow I1 B1), (Hrow I2 B2) in H. set (rows1 := map (fun i => znth [] i signals) I1) in *. set (rows2 := map (fun i => znth [] i signals) I2) in *.
  destruct (fengine F pw E norm n rows1 (zlen ants1) dl1 fq cplx LFFT ov window pfb rate 0 (around1 s) (ord1 s)) as [[[nFFT1 [fe1 v1]]|]|] eqn:Ef1; try discriminate.
  destruct (fengine F pw E norm n rows2 (zlen ants1) dl2 fq cplx LFFT ov window pfb rate 0 (around2 s) (ord2 s)) as [[[nFFT2 [fe2 v2]]|]|] eqn:Ef2; try discriminate.
  assert (LR1 : zlen rows1 = zlen I1) by (apply zlen_map). assert (LR2 : zlen rows2 = zlen I2) by (apply zlen_map).
  destruct (Z.eqb_spec nFFT2 nFFT1) as [En|]; [|discriminate]. subst nFFT2. cbn [negb] in H.
  assert (EI : zlen I2 = zlen I1) by (destruct (fengine_ok _ _ _ _ _ _ _ _ _ _ _ _ _ _ _ _ _ _ _ _ Ef2) as (HH & _); lia).
  destruct (delays_of_ok _ _ _ _ _ d Edl) as ([Npos Nle] & tmin & Hleast & D1 & D2).
  assert (Lfq : zlen fq = LFFT) by (apply frequencies_len; exact HLF). rewrite Lfq in Hleast.
  set (fr := znth 0%Qc (LFFT / 2) fq) in *.
  destruct (kept ants1 ants2 auto) as [keep|] eqn:Ek; [|discriminate].
  destruct (kept_pairs ants1 ants2 auto keep d) as [K1 K2]; [lia| |exact Ek|].
  { intros Ha i j Hi Hj. rewrite N1, N2 by lia. apply HS; [exact Ha|lia|lia]. }
  rewrite (get_baselines_ok d) in Ebl by lia. assert (Ebl' : bl = map (fun q => (A (znth 0 (fst q) I1), A (znth 0 (snd q) I2))) (pair_list auto (zlen I1))).
  { injection Ebl as <-. rewrite pair_list_pairs, LA1. apply map_ext_in. intros [i j] Hij. apply pairs_in in Hij. cbn [fst snd]. rewrite N1, N2 by lia. reflexivity. }
  set (o := xengine3 (zlen ants1) LFFT nFFT1 fe1 fe2 v1 v2 (ordX s)) in *.
  assert (Lkeep : zlen keep = zlen (pair_list auto (zlen I1))) by (rewrite pair_list_pairs, <- LA1, <- K1, zlen_map; reflexivity).
  assert (Lbl : zlen bl = zlen (pair_list auto (zlen I1))) by (rewrite Ebl'; apply zlen_map).
  injection H as <- <- <-. unfold four.
  assert (Hp4 : forall p, 0 <= p < 4 -> znth [] p (map (fun p => map (fun b => map (fun k => o (p * Z.quot ((zlen ants1 + 1) * zlen ants1) 2 * LFFT + b * LFFT + k)) (range 0 LFFT)) keep) (range 0 4)) =
     map (fun b => map (fun k => o (p * Z.quot ((zlen ants1 + 1) * zlen ants1) 2 * LFFT + b * LFFT + k)) (range 0 LFFT)) keep).
  { intros p Hp. rewrite (znth_map _ _ _ 0) by (rewrite range_len; lia). rewrite znth_range' by lia. reflexivity. }
  split; [exact EI|]. split; [exact Ebl'|]. split; [rewrite zlen_map, range_len; reflexivity|]. split; [intros p Hp; rewrite Hp4 by exact Hp; rewrite zlen_map; lia|]. split; [exact Lfq|]. split.
  { intros k Hk. apply frequencies_at; try assumption. apply rate_nz. exact Hrate. }
  assert (Hleast' : least (map (fun i => a_delay (A i) fr) (I1 ++ I2)) tmin).
  { rewrite ztake_all in Hleast by lia. rewrite EA1, EA2, <- map_app, map_map in Hleast. exact Hleast. }
  pose (tau1 := fun i f => (a_delay (znth d i ants1) f - tmin)%Qc). pose (tau2 := fun i f => (a_delay (znth d i ants2) f - tmin)%Qc).
  assert (Pos : forall t, (tmin <= t)%Qc -> (0 <= t - tmin)%Qc) by (intros t Ht; apply (proj1 (Qcle_minus_iff _ _)); exact Ht).
  assert (Fr1 : front n cplx LFFT rate f0 (zlen ants1) rows1 dl1 tau1).
  { split; [lia|]. split; [|split].
    - intros r Hr. apply in_map_iff in Hr. destruct Hr as (i & <- & Hi). apply Hsig. apply znth_In. rewrite Hsa. apply B1. exact Hi.
    - intros i j Hi. unfold tau1. apply D1. exact Hi.
    - intros i Hi. unfold tau1. apply Pos. apply Hleast'. rewrite N1 by lia. apply in_map_iff. exists (znth 0 i I1). split; [reflexivity|]. apply in_or_app. left. apply znth_In. lia. }
  assert (Fr2 : front n cplx LFFT rate f0 (zlen ants1) rows2 dl2 tau2).
  { split; [lia|]. split; [|split].
    - intros r Hr. apply in_map_iff in Hr. destruct Hr as (i & <- & Hi). apply Hsig. apply znth_In. rewrite Hsa. apply B2. exact Hi.
    - intros i j Hi. unfold tau2. apply D2. exact Hi.
    - intros i Hi. unfold tau2. apply Pos. apply Hleast'. rewrite N2 by lia. apply in_map_iff. exists (znth 0 i I2). split; [reflexivity|]. apply in_or_app. right. apply znth_In. lia. }
  destruct (st_cell F pw E norm n cplx LFFT ov step window pfb rate f0 HLF Hn Hrate Hov Hstep (zlen ants1) rows1 rows2 dl1 dl2 tau1 tau2 (around1 s) (around2 s) (ord1 s) (ord2 s) (ordX s) nFFT1 (fe1, v1) (fe2, v2)
    Npos Fr1 Fr2 Ef1 Ef2) as (dmax & Hgr & Hst & Hx).
  exists tmin, dmax. cbv zeta. fold fr. split; [exact Hleast'|]. split.
  { replace (map (fun i => lag rate fr (fun f => (a_delay (A i) f - tmin)%Qc)) I1) with (map (fun i => lag rate fr (tau1 i)) (range 0 (zlen ants1))); [exact Hgr|].
    transitivity (map (fun i => lag rate fr (fun f => (a_delay (A i) f - tmin)%Qc)) (map (fun i => znth 0 i I1) (range 0 (zlen I1)))); [|rewrite znth_self; reflexivity].
    rewrite map_map, LA1. apply map_ext_in. intros i Hi. apply range_in in Hi. unfold tau1. rewrite N1 by lia. reflexivity. }
  fold L in Hst. rewrite Hst. rewrite !upto_range. intros O1 O2 OX p r i j k Hp Hr Hij Hk.
  rewrite (pair_list_pairs true), <- mapper_all, <- LA1 in OX.
  rewrite <- LA1 in O1, O2.
  specialize (Hx O1 O2 OX (znth 0 r keep) i j k p).
  assert (Hkr : In (znth 0 r keep) keep) by (apply znth_In; lia).
  assert (Hb : 0 <= znth 0 r keep < zlen (mapper (zlen ants1))) by (rewrite mapper_all; apply K2; exact Hkr).
  assert (Hm : znth (0, 0) (znth 0 r keep) (mapper (zlen ants1)) = (i, j)).
  { rewrite <- Hij, mapper_all. rewrite pair_list_pairs, <- LA1, <- K1. rewrite (znth_map _ _ _ 0) by lia. reflexivity. }
  specialize (Hx Hb Hm Hk Hp).
  assert (Hij' : 0 <= i < zlen I1 /\ 0 <= j < zlen I1).
  { assert (HI : In (i, j) (pair_list auto (zlen I1))) by (rewrite <- Hij; apply znth_In; lia). rewrite pair_list_pairs in HI. apply pairs_in in HI. lia. }
  destruct Hij' as [Hi Hj]. cbv zeta in Hx. cbn [fst snd] in Hx. fold o in Hx.
  rewrite Hp4 by exact Hp. rewrite (znth_map _ _ _ 0) by lia. rewrite (znth_map _ _ _ 0) by (rewrite range_len; lia). rewrite znth_range' by lia. replace (0 + k) with k by lia.
  rewrite Hx. clear Hx. unfold rows1, rows2. rewrite !(znth_map _ _ _ 0) by lia. unfold tau1, tau2. rewrite !N1, !N2 by lia. fold fq fr L.
  split; [|reflexivity].
  assert (Ln : forall J q, (forall i, In i J -> 0 <= i < zlen ants) -> 0 <= q < zlen J -> zlen (znth [] (znth 0 q J) signals) = n).
  { intros J q HJ Hq. apply Hsig. apply znth_In. rewrite Hsa. apply HJ. apply znth_In. exact Hq. }
  intros [Hp2|Eij].
  - apply stokes_iq; [lia|]. apply correlation_none_same; change complex with C; rewrite !Ln by (assumption || lia); reflexivity.
  - subst j. f_equal. symmetry. apply C78_conjugate_proof. change complex with C. rewrite !Ln by (assumption || lia). reflexivity.
Qed.

(** The results as fractions. *)
Definition shown80 (r : option (res (list (ant * ant) * list Qc * list (list (list (option C)))))) : option (res (list (Z * Z) * list (list (list (option (Q * Q)))))) :=
  match r with
  | None => None | Some (Raise e) => Some (Raise e)
  | Some (Ok (b, f, o)) => Some (Ok (map (fun q => (a_stand (fst q), a_stand (snd q))) b, map (map (map (option_map (fun z => (this (fst z), this (snd z)))))) o))
  end.
(** Complex data, two channels (or one), no delays, gains of 4 each unless said otherwise. *)
Definition run80 (LFFT n : Z) (signals : list (list C)) (ants : list ant) (auto gain : bool) (clip : Z) (o1 o2 oX : list Z) :=
  shown80 (fx_stokes (fun _ _ l => if LFFT =? 2 then dft2 l else l) (fun _ _ => 1%Qc) quarter (fun _ => 1%Qc) (fun _ _ _ => (1 / qz 4)%Qc) n signals ants true LFFT 1 auto None false (qz 4) (qz 1) gain clip
    (mkS o1 o2 oX (fun _ => qi 77 0) (fun _ => qi 77 0))).
(** The correlation of two of the signals without delays. *)
Definition corr80 (x y : list C) : option complex := correlation quarter 1%Qc (fun l => l) 1 1 None 0 1 (qz 4) (qz 1) 0 (qz 1) 0 x y (fun _ => 0%Qc) (fun _ => 0%Qc).
Definition this80 (o : option complex) : option (Q * Q) := option_map (fun z => (this (fst z), this (snd z))) o.

Lemma C80_example_proof :
  run80 2 4 [[qi 1 0; qi 2 0; qi 3 0; qi 4 0]; [qi 0 1; qi 0 1; qi 0 1; qi 0 3]] [late 0 7 0; late 1 7 0] true false 0 [1; 0] [0; 1] [0] =
  Some (Ok ([(7, 7)], [[[Some (3%Q, 0%Q); Some (39%Q, 0%Q)]]; [[Some ((-1)%Q, 0%Q); Some (19%Q, 0%Q)]]; [[Some (0%Q, 0%Q); Some (0%Q, 0%Q)]]; [[Some ((-2)%Q, 0%Q); Some ((-34)%Q, 0%Q)]]])).
Proof. vm_compute. reflexivity. Qed.

(** C80: U and V of two stands are not those of the baseline: X1 = 1, Y1 = 3+i, X2 = 2i, Y2 = 1. *)
Definition sig80 : list (list C) := [[qi 1 0]; [qi 3 1]; [qi 0 2]; [qi 1 0]].
Lemma C80_uv_refuted_proof :
  let cell p := match run80 1 1 sig80 [late 0 1 0; late 1 1 0; late 0 2 0; late 1 2 0] false false 0 [0; 1] [0; 1] [0; 1; 2] with
                | Some (Ok (_, out)) => znth None 0 (znth [] 0 (znth [] p out)) | _ => None end in
  let right p := this80 (stokes_vis p (corr80 [qi 1 0] [qi 0 2]) (corr80 [qi 1 0] [qi 1 0]) (corr80 [qi 3 1] [qi 0 2]) (corr80 [qi 3 1] [qi 1 0])) in
  map cell [0; 1; 2; 3] = [Some (3%Q, (-1)%Q); Some ((-3)%Q, (-3)%Q); Some (2%Q, 0%Q); Some (0%Q, 0%Q)] /\
  map right [0; 1; 2; 3] = [Some (3%Q, (-1)%Q); Some ((-3)%Q, (-3)%Q); Some (3%Q, (-6)%Q); Some (6%Q, 1%Q)].
Proof. cbv zeta. split; vm_compute; reflexivity. Qed.

(** C80: with clipping, the sums are divided by the number of transforms in which neither X of the first nor Y of the second stand is clipped, whatever was summed.  A stand with
    |x|^2 = |y|^2 = 4 in all transforms that count, of which one of X is clipped, gets an I of 12 in place of 8; with one clipped in each
    there is no number at all. *)
Lemma C80_clip_refuted_proof :
  run80 1 2 [[qi 9 0; qi 2 0]; [qi 2 0; qi 2 0]] [late 0 1 0; late 1 1 0] true false 5 [0; 1] [0; 1] [0] =
    Some (Ok ([(1, 1)], [[[Some (12%Q, 0%Q)]]; [[Some ((-4)%Q, 0%Q)]]; [[Some (8%Q, 0%Q)]]; [[Some (0%Q, 0%Q)]]])) /\
  run80 1 2 [[qi 9 0; qi 2 0]; [qi 2 0; qi 9 0]] [late 0 1 0; late 1 1 0] true false 5 [0; 1] [0; 1] [0] =
    Some (Ok ([(1, 1)], [[[None]]; [[None]]; [[None]]; [[None]]])).
Proof. split; vm_compute; reflexivity. Qed.

(** C80: gain correction reaches four baselines.  With three stands, the last two of six keep the value 2 where the first four get 2/4; with two stands, it
    is an IndexError. *)
Lemma C80_gain_refuted_proof :
  match run80 1 1 [[qi 1 0]; [qi 1 0]; [qi 1 0]; [qi 1 0]; [qi 1 0]; [qi 1 0]] [late 0 1 0; late 1 1 0; late 0 2 0; late 1 2 0; late 0 3 0; late 1 3 0] true true 0 [0; 1; 2] [0; 1; 2] [0; 1; 2; 3; 4; 5] with
  | Some (Ok (bl, out)) => bl = [(1, 1); (1, 2); (1, 3); (2, 2); (2, 3); (3, 3)] /\ map (znth None 0) (znth [] 0 out) = [Some ((1 # 2)%Q, 0%Q); Some ((1 # 2)%Q, 0%Q); Some ((1 # 2)%Q, 0%Q); Some ((1 # 2)%Q, 0%Q); Some (2%Q, 0%Q); Some (2%Q, 0%Q)]
  | _ => False
  end /\
  run80 1 1 sig80 [late 0 1 0; late 1 1 0; late 0 2 0; late 1 2 0] true true 0 [0; 1] [0; 1] [0; 1; 2] = Some (Raise IndexError).
Proof. split; [|vm_compute; reflexivity]. vm_compute. split; reflexivity. Qed.

(** C81: XStokes.  When the X and the Y antenna of each stand have the same delay, and the stands are distinct (and listed in the same order for X and Y unless auto-correlations
    are kept), I and Q of every baseline, and all four parameters of the auto-correlations, are those of the
    means of the products of the signals, rotated by the delays.  Missing: U and V of two different stands, and antennas whose delays differ, where the code does not do
    what it should: C81_uv_refuted, C81_delays_refuted. *)
Lemma C81_stokes_partial_proof : forall E rgain freq nChan nTime (signals : list (list (list C))) ants auto (gain : bool) orderX baselines out (d : ant),
  0 < nChan -> 0 <= nTime -> zlen signals = zlen ants ->
  let I1 := positions (fun a => a_pol a =? 0) ants in let I2 := positions (fun a => a_pol a =? 1) ants in
  let A i := znth d i ants in
  NoDup (map (fun i => a_stand (A i)) I1) -> NoDup (map (fun i => a_stand (A i)) I2) ->
  (auto = false -> forall i j, 0 <= i < zlen I1 -> 0 <= j < zlen I1 -> (a_stand (A (znth 0 i I1)) = a_stand (A (znth 0 j I2)) <-> i = j)) ->
  (forall i f, 0 <= i < zlen I1 -> In f freq -> a_delay (A (znth 0 i I1)) f = a_delay (A (znth 0 i I2)) f) ->
  x_stokes E rgain freq nChan nTime signals ants auto gain orderX = Ok (baselines, out) ->
  zlen I2 = zlen I1 /\ baselines = map (fun q => (A (znth 0 (fst q) I1), A (znth 0 (snd q) I2))) (pair_list auto (zlen I1)) /\ zlen out = 4 /\
  (forall p, 0 <= p < 4 -> zlen (znth [] p out) = zlen baselines) /\
  exists tmin, least (map (fun i => a_delay (A i) (znth 0%Qc (zlen freq / 2) freq)) (I1 ++ I2)) tmin /\
    (Permutation orderX (upto 0 (zlen (pair_list true (zlen I1)))) ->
     forall p r i j k, 0 <= p < 4 -> 0 <= r < zlen baselines -> znth (0, 0) r (pair_list auto (zlen I1)) = (i, j) -> 0 <= k < nChan -> p < 2 \/ i = j ->
     let f := znth 0%Qc k freq in
     let turned u t := c_times (znth (0%Qc, 0%Qc) t (znth [] k (znth [] u signals))) (E (f * (a_delay (A u) f - tmin))%Qc) in
     let corr u v := mean_c (map (fun t => times_conj (turned u t) (turned v t)) (upto 0 nTime)) in
     let x1 := znth 0 i I1 in let y1 := znth 0 i I2 in let x2 := znth 0 j I1 in let y2 := znth 0 j I2 in
     znth None k (znth [] r (znth [] p out)) =
     option_map (fun z => if gain then c_times z (rgain (A x1) (A y2) f, 0%Qc) else z) (stokes_vis p (corr x1 x2) (corr x1 y2) (corr y1 x2) (corr y1 y2))).
Proof.
  intros E rgain freq nChan nTime signals ants auto gain orderX baselines out d Hc Ht Hsa I1 I2 A ND1 ND2 HS Heq H.
  unfold x_stokes in H. cbv zeta in H. rewrite !index_positions in H. fold I1 I2 in H.
  set (ants1 := of_pol 0 ants) in *. set (ants2 := of_pol 1 ants) in *.
  assert (EA1 : ants1 = map A I1) by (symmetry; apply positions_pick). assert (EA2 : ants2 = map A I2) by (symmetry; apply positions_pick).
  assert (LA1 : zlen ants1 = zlen I1) by (rewrite EA1; apply zlen_map). assert (LA2 : zlen ants2 = zlen I2) by (rewrite EA2; apply zlen_map).
  assert (N1 : forall i, 0 <= i < zlen I1 -> znth d i ants1 = A (znth 0 i I1)) by (intros i Hi; rewrite EA1; apply (znth_map _ _ _ 0); exact Hi).
  assert (N2 : forall i, 0 <= i < zlen I2 -> znth d i ants2 = A (znth 0 i I2)) by (intros i Hi; rewrite EA2; apply (znth_map _ _ _ 0); exact Hi).
  destruct (get_baselines ants1 (Some ants2) auto) as [bl|] eqn:Ebl; [|discriminate]. cbn [bind] in H.
  destruct (delays_of freq ants1 ants2) as [[dl1 dl2]|] eqn:Edl; [|discriminate]. cbn [bind] in H.
  assert (Hrow : forall J, (forall i, In i J -> 0 <= i < zlen ants) -> take_rows signals J = Ok (map (fun i => znth [] i signals) J)).
  { intros J HJ. unfold take_rows. apply collect_ok. intros i Hi. apply P_CorrPick.py_index_in. rewrite Hsa. apply HJ. exact Hi. }
  assert (B1 : forall i, In i I1 -> 0 <= i < zlen ants) by (intros i Hi; apply positions_in in Hi; exact Hi).
  assert (B2 : forall i, In i I2 -> 0 <= i < zlen ants) by (intros i Hi; apply positions_in in Hi; exact Hi).
  rewrite (Hrow I1 B1), (Hrow I2 B2) in H. cbn [bind] in H.
  set (rows1 := map (fun i => znth [] i signals) I1) in *. set (rows2 := map (fun i => znth [] i signals) I2) in *.
  assert (LR1 : zlen rows1 = zlen I1) by (apply zlen_map). assert (LR2 : zlen rows2 = zlen I2) by (apply zlen_map).
  destruct (Z.eqb_spec (zlen rows2) (zlen rows1)) as [EI|]; [|discriminate]. cbn [negb] in H. rewrite LR1, LR2 in EI.
  destruct (delays_of_ok _ _ _ _ _ d Edl) as ([Npos Nle] & tmin & Hleast & D1 & D2).
  destruct (kept ants1 ants2 auto) as [keep|] eqn:Ek; [|discriminate]. cbn [bind] in H.
  destruct (kept_pairs ants1 ants2 auto keep d) as [K1 K2]; [lia| |exact Ek|].
  { intros Ha i j Hi Hj. rewrite N1, N2 by lia. apply HS; [exact Ha|lia|lia]. }
  rewrite (get_baselines_ok d) in Ebl by lia. assert (Ebl' : bl = map (fun q => (A (znth 0 (fst q) I1), A (znth 0 (snd q) I2))) (pair_list auto (zlen I1))).
  { injection Ebl as <-. rewrite pair_list_pairs, LA1. apply map_ext_in. intros [i j] Hij. apply pairs_in in Hij. cbn [fst snd]. rewrite N1, N2 by lia. reflexivity. }
  destruct (collect _) as [rows|] eqn:Ec; [|discriminate]. cbn [bind] in H.
  assert (Eb0 : bl = baselines) by (apply (f_equal (fun r => match r with Ok q => fst q | Raise _ => [] end)) in H; exact H).
  assert (Eo0 : map (fun p => map (fun row : Z -> list (option C) => row p) rows) (range 0 4) = out) by (apply (f_equal (fun r => match r with Ok q => snd q | Raise _ => [] end)) in H; exact H).
  clear H. subst baselines. rewrite <- Eo0. clear Eo0.
  destruct (collect_inv _ _ (0, 0) (fun _ => []) _ _ _ Ec) as [C1 C2]. clear Ec.
  assert (Lkeep : zlen keep = zlen (pair_list auto (zlen I1))) by (rewrite pair_list_pairs, <- LA1, <- K1, zlen_map; reflexivity).
  assert (Lbl : zlen bl = zlen (pair_list auto (zlen I1))) by (rewrite Ebl'; apply zlen_map).
  assert (Lc : zlen (combine (range 0 (zlen keep)) keep) = zlen keep) by apply zlen_combine_range.
  rewrite Lc in C1, C2.
  assert (G : forall p r i j, 0 <= r < zlen bl -> znth (0, 0) r (pair_list auto (zlen I1)) = (i, j) ->
    nChan = zlen freq /\ 0 <= i < zlen I1 /\ 0 <= j < zlen I1 /\
    znth (fun _ => []) r rows p = map (fun k => times (rotation E rgain freq (dl1 i) (dl2 j) (A (znth 0 i I1), A (znth 0 j I2)) gain k)
      (xengine3 (zlen rows1) nChan nTime (cube nChan nTime rows1) (cube nChan nTime rows2) (fun _ => 1) (fun _ => 1) orderX
        (p * Z.quot ((zlen rows1 + 1) * zlen rows1) 2 * nChan + znth 0 r keep * nChan + k))) (range 0 nChan)).
  { intros p r i j Hr Hij.
    assert (Hb : 0 <= i < zlen I1 /\ 0 <= j < zlen I1).
    { assert (HI : In (i, j) (pair_list auto (zlen I1))) by (rewrite <- Hij; apply znth_In; lia). rewrite pair_list_pairs in HI. apply pairs_in in HI. lia. }
    destruct Hb as [Hi Hj]. specialize (C2 r ltac:(lia)). rewrite combine_range_at in C2 by lia. cbn [fst snd] in C2.
    unfold label in C2. rewrite (P_CorrPick.py_index_in _ (d, d)) in C2 by lia. cbn [bind] in C2.
    assert (Eb : znth (d, d) r bl = (A (znth 0 i I1), A (znth 0 j I2))) by (rewrite Ebl', (znth_map _ _ _ (0, 0)) by lia; rewrite Hij; reflexivity).
    rewrite Eb in C2. cbn [fst snd] in C2.
    rewrite <- N1 in C2 at 1 by lia. rewrite (delay_of_stand_at ants1 dl1 i d) in C2;
      [|rewrite EA1, map_map; exact ND1|lia].
    cbn [bind] in C2. rewrite ztake_all in C2 by lia. rewrite <- N2 in C2 at 1 by lia. rewrite (delay_of_stand_at ants2 dl2 j d) in C2;
      [|rewrite EA2, map_map; exact ND2|lia].
    cbn [bind] in C2. destruct (Z.eqb_spec nChan (zlen freq)) as [En|]; [|discriminate]. cbn [negb] in C2. injection C2 as C2.
    split; [exact En|]. split; [exact Hi|]. split; [exact Hj|]. rewrite <- C2. reflexivity. }
  assert (Hp4 : forall p, 0 <= p < 4 -> znth [] p (map (fun p => map (fun row : Z -> list (option C) => row p) rows) (range 0 4)) = map (fun row => row p) rows).
  { intros p Hp. rewrite (znth_map _ _ _ 0) by (rewrite range_len; lia). rewrite znth_range' by lia. reflexivity. }
  split; [exact EI|]. split; [exact Ebl'|]. split; [rewrite zlen_map, range_len; reflexivity|]. split; [intros p Hp; rewrite Hp4 by exact Hp; rewrite zlen_map; lia|].
  exists tmin. split.
  { rewrite ztake_all in Hleast by lia. rewrite EA1, EA2, <- map_app, map_map in Hleast. exact Hleast. }
  intros O p r i j k Hp Hr Hij Hk Hpij. cbv zeta. destruct (G p r i j Hr Hij) as (En & Hi & Hj & Er). rewrite Hp4 by exact Hp.
  rewrite (znth_map _ _ _ (fun _ => [])) by lia. rewrite Er.
  rewrite (znth_map _ _ _ 0) by (rewrite range_len; lia). rewrite znth_range' by lia. replace (0 + k) with k by lia.
  assert (Hkr : In (znth 0 r keep) keep) by (apply znth_In; lia).
  pose proof (zlen_nonneg rows1) as Hz1.
  rewrite xengine3_at; [|exact Hc|exact Hz1|rewrite mapper_all, LR1, <- (pair_list_pairs true), <- upto_range; exact O|rewrite mapper_all, LR1, <- LA1; apply K2; exact Hkr|exact Hp|exact Hk].
  assert (Hm : znth (0, 0) (znth 0 r keep) (mapper (zlen rows1)) = (i, j)).
  { rewrite <- Hij, mapper_all, LR1. rewrite pair_list_pairs, <- LA1, <- K1. rewrite (znth_map _ _ _ 0) by lia. reflexivity. }
  assert (AV : forall a b, act_vis nTime (fun _ => 1) (fun _ => 1) a b = nTime) by (intros a b; apply act_vis_all; [exact Ht|reflexivity|reflexivity]).
  rewrite (x3val_stokes _ _ _ _ _ _ _ _ i j p k Hm (AV i j) Hp).
  assert (XC : forall rowsA rowsB, cdiv (product nChan nTime (cube nChan nTime rowsA) (cube nChan nTime rowsB) i j k) nTime =
     mean_c (map (fun t => times_conj (znth c0 t (znth [] k (znth [] i rowsA))) (znth c0 t (znth [] k (znth [] j rowsB)))) (range 0 nTime))).
  { intros rowsA rowsB. pose proof (x_cell nChan nTime rowsA rowsB i j k Ht Hk) as X. rewrite AV in X. exact X. }
  rewrite !XC.
  unfold rows1, rows2. rewrite !(znth_map _ _ _ 0) by lia. unfold rotation. rewrite D1, D2 by lia. rewrite N1, N2 by lia. cbn [fst snd].
  rewrite upto_range. set (f := znth 0%Qc k freq).
  assert (Hf : In f freq) by (apply znth_In; lia).
  rewrite <- (Heq i f Hi Hf), <- (Heq j f Hj Hf).
  set (r1 := E (f * (a_delay (A (znth 0%Z i I1)) f - tmin))%Qc). set (r2 := E (f * (a_delay (A (znth 0%Z j I1)) f - tmin))%Qc).
  apply (stokes_turned p gain _ r1 r2 (fun t => znth c0 t (znth [] k (znth [] (znth 0 i I1) signals))) (fun t => znth c0 t (znth [] k (znth [] (znth 0 j I1) signals)))
    (fun t => znth c0 t (znth [] k (znth [] (znth 0 i I2) signals))) (fun t => znth c0 t (znth [] k (znth [] (znth 0 j I2) signals)))).
  destruct Hpij as [Hp2| ->]; [left; lia|right; split; reflexivity].
Qed.

Definition shown81 (r : res (list (ant * ant) * list (list (list (option C))))) : res (list (Z * Z) * list (list (list (option (Q * Q))))) :=
  match r with
  | Raise e => Raise e
  | Ok (b, o) => Ok (map (fun q => (a_stand (fst q), a_stand (snd q))) b, map (map (map this80)) o)
  end.
Definition run81 (signals : list (list (list C))) (ants : list ant) (auto : bool) (order : list Z) :=
  shown81 (x_stokes quarter (fun _ _ _ => 1%Qc) [qz 1] 1 (zlen (znth [] 0 (znth [] 0 signals))) signals ants auto false order).
(** Stand 3 receives what stand 7 receives, a quarter of a second later. *)
Definition sig81 : list (list (list C)) := [[[qi 1 0; qi 0 2]]; [[qi 1 0; qi 0 1]]; [[qi 0 (-1); qi 2 0]]; [[qi 0 (-1); qi 1 0]]].
Lemma C81_example_proof :
  match run81 sig81 [late 0 7 0; late 1 7 0; late 0 3 1; late 1 3 1] true [2; 1; 0] with
  | Ok (bl, [i; q; u; v]) => bl = [(7, 7); (7, 3); (3, 3)] /\
      i = [[Some ((7 # 2)%Q, 0%Q)]; [Some ((7 # 2)%Q, 0%Q)]; [Some ((7 # 2)%Q, 0%Q)]] /\ q = [[Some ((3 # 2)%Q, 0%Q)]; [Some ((3 # 2)%Q, 0%Q)]; [Some ((3 # 2)%Q, 0%Q)]] /\
      znth [] 0 u = [Some (3%Q, 0%Q)] /\ znth [] 2 u = [Some (3%Q, 0%Q)] /\ znth [] 0 v = [Some (0%Q, 0%Q)] /\ znth [] 2 v = [Some (0%Q, 0%Q)]
  | _ => False
  end.
Proof. vm_compute. repeat split. Qed.
(** C81: U and V of two stands are wrong.  In that run, where both stands see the same signal once the delays are undone, U is 3 and V 0 for either stand with itself; for the two together it
    should be the same, but U is 0 and V is -3i. *)
Lemma C81_uv_refuted_proof :
  match run81 sig81 [late 0 7 0; late 1 7 0; late 0 3 1; late 1 3 1] true [2; 1; 0] with
  | Ok (_, [i; q; u; v]) => u = [[Some (3%Q, 0%Q)]; [Some (0%Q, 0%Q)]; [Some (3%Q, 0%Q)]] /\ v = [[Some (0%Q, 0%Q)]; [Some (0%Q, (-3)%Q)]; [Some (0%Q, 0%Q)]]
  | _ => False
  end.
Proof. vm_compute. split; reflexivity. Qed.
(** C81: one rotation, by the delay of X of the first and that of Y of the second stand, is applied to all products.  If these differ, even I of a stand with itself is no real number. *)
Lemma C81_delays_refuted_proof :
  match run81 [[[qi 1 0]]; [[qi 0 (-1)]]] [late 0 7 0; late 1 7 1] true [0] with
  | Ok (_, [i; _; _; _]) => i = [[Some (0%Q, (-2)%Q)]]
  | _ => False
  end.
Proof. vm_compute. reflexivity. Qed.
