(** Property theorems (generated from P_CorrZT.v by tools/gen_theorems.py). *)
From Coq Require Import Ascii String List ZArith QArith Qcanon Qround Bool Lia Permutation.
From Verif Require Import LibList M_Py M_Base P_Base M_Corr M_CorrPy S_Corr P_Corr P_CorrSpec P_CorrPsd P_CorrPick P_CorrF P_CorrX P_CorrFX P_CorrAl P_CorrY P_CorrZ P_CorrT P_CorrXT P_CorrYT P_CorrZT.
Import ListNotations.
Open Scope Z_scope.

(** C80: FXStokes without clipping and gain correction.  I and Q of every baseline, and all four parameters of the auto-correlations, are those of the correlations of the
    X and Y signals.  Missing: U and V of two different stands (what is returned uses the conjugate of the correlation of X1 with Y2 for that of Y1 with X2),
    clipped data and gain correction, where the code does not do what it should: C80_uv_refuted, C80_clip_refuted, C80_gain_refuted. *)
Theorem C80_stokes_partial : forall F pw E norm rgain n signals ants (cplx : bool) LFFT ov auto window (pfb : bool) rate f0 s baselines freq out (d : ant) step,
  let L := if cplx then LFFT else 2 * LFFT in
  0 < LFFT -> 0 <= n -> (0 < rate)%Qc -> 0 < ov -> L = step * ov -> (forall x : list C, In x signals -> zlen x = n) -> zlen signals = zlen ants ->
  let I1 := positions (fun a => a_pol a =? 0) ants in let I2 := positions (fun a => a_pol a =? 1) ants in
  let A i := znth d i ants in
  (auto = false -> forall i j, 0 <= i < zlen I1 -> 0 <= j < zlen I1 -> (a_stand (A (znth 0 i I1)) = a_stand (A (znth 0 j I2)) <-> i = j)) ->
  fx_stokes F pw E norm rgain n signals ants cplx LFFT ov auto window pfb rate f0 false 0 s = Some (Ok (baselines, freq, out)) ->
  zlen I2 = zlen I1 /\ baselines = map (fun q => (A (znth 0 (fst q) I1), A (znth 0 (snd q) I2))) (pair_list auto (zlen I1)) /\ zlen out = 4 /\
  (forall p, 0 <= p < 4 -> zlen (znth [] p out) = zlen baselines) /\
  zlen freq = LFFT /\ (forall k, 0 <= k < LFFT -> znth 0%Qc k freq = if cplx then (f0 + bin_freq LFFT rate (shifted_bin LFFT k))%Qc else bin_freq (2 * LFFT) rate k) /\
  exists tmin dmax, let fr := znth 0%Qc (LFFT / 2) freq in let tau i f := (a_delay (A i) f - tmin)%Qc in
    least (map (fun i => a_delay (A i) fr) (I1 ++ I2)) tmin /\ greatest (map (fun i => lag rate fr (tau i)) I1) dmax /\
    let m := zlen (starts L (n - dmax) step) in
    (Permutation (ord1 s) (upto 0 (zlen I1 * m)) -> Permutation (ord2 s) (upto 0 (zlen I1 * m)) -> Permutation (ordX s) (upto 0 (zlen (pair_list true (zlen I1)))) ->
     forall p r i j k, 0 <= p < 4 -> 0 <= r < zlen baselines -> znth (0, 0) r (pair_list auto (zlen I1)) = (i, j) -> 0 <= k < LFFT ->
     let corr u v := correlation E (norm L) (F (negb cplx) LFFT) L (if pfb then 4 else 1) (if pfb then Some (pw (L * 4)) else match window with Some w => Some (w L) | None => None end)
          0 step rate fr dmax (znth 0%Qc k freq) (if cplx then shifted_bin LFFT k else k) (znth [] u signals) (znth [] v signals) (tau u) (tau v) in
     let x1 := znth 0 i I1 in let y1 := znth 0 i I2 in let x2 := znth 0 j I1 in let y2 := znth 0 j I2 in
     (p < 2 \/ i = j -> znth None k (znth [] r (znth [] p out)) = stokes_vis p (corr x1 x2) (corr x1 y2) (corr y1 x2) (corr y1 y2)) /\
     znth None k (znth [] r (znth [] p out)) = stokes_vis p (corr x1 x2) (corr x1 y2) (option_map (fun z => (fst z, (- snd z)%Qc)) (corr x1 y2)) (corr y1 y2)).
Proof. exact C80_stokes_partial_proof. Qed.
Print Assumptions C80_stokes_partial.

Example C80_example :
  run80 2 4 [[qi 1 0; qi 2 0; qi 3 0; qi 4 0]; [qi 0 1; qi 0 1; qi 0 1; qi 0 3]] [late 0 7 0; late 1 7 0] true false 0 [1; 0] [0; 1] [0] =
  Some (Ok ([(7, 7)], [[[Some (3%Q, 0%Q); Some (39%Q, 0%Q)]]; [[Some ((-1)%Q, 0%Q); Some (19%Q, 0%Q)]]; [[Some (0%Q, 0%Q); Some (0%Q, 0%Q)]]; [[Some ((-2)%Q, 0%Q); Some ((-34)%Q, 0%Q)]]])).
Proof. exact C80_example_proof. Qed.

Theorem C80_uv_refuted :
  let cell p := match run80 1 1 sig80 [late 0 1 0; late 1 1 0; late 0 2 0; late 1 2 0] false false 0 [0; 1] [0; 1] [0; 1; 2] with
                | Some (Ok (_, out)) => znth None 0 (znth [] 0 (znth [] p out)) | _ => None end in
  let right p := this80 (stokes_vis p (corr80 [qi 1 0] [qi 0 2]) (corr80 [qi 1 0] [qi 1 0]) (corr80 [qi 3 1] [qi 0 2]) (corr80 [qi 3 1] [qi 1 0])) in
  map cell [0; 1; 2; 3] = [Some (3%Q, (-1)%Q); Some ((-3)%Q, (-3)%Q); Some (2%Q, 0%Q); Some (0%Q, 0%Q)] /\
  map right [0; 1; 2; 3] = [Some (3%Q, (-1)%Q); Some ((-3)%Q, (-3)%Q); Some (3%Q, (-6)%Q); Some (6%Q, 1%Q)].
Proof. exact C80_uv_refuted_proof. Qed.
Print Assumptions C80_uv_refuted.

(** C80: with clipping, the sums are divided by the number of transforms in which neither X of the first nor Y of the second stand is clipped, whatever was summed.  A stand with
    |x|^2 = |y|^2 = 4 in all transforms that count, of which one of X is clipped, gets an I of 12 in place of 8; with one clipped in each
    there is no number at all. *)
Theorem C80_clip_refuted :
  run80 1 2 [[qi 9 0; qi 2 0]; [qi 2 0; qi 2 0]] [late 0 1 0; late 1 1 0] true false 5 [0; 1] [0; 1] [0] =
    Some (Ok ([(1, 1)], [[[Some (12%Q, 0%Q)]]; [[Some ((-4)%Q, 0%Q)]]; [[Some (8%Q, 0%Q)]]; [[Some (0%Q, 0%Q)]]])) /\
  run80 1 2 [[qi 9 0; qi 2 0]; [qi 2 0; qi 9 0]] [late 0 1 0; late 1 1 0] true false 5 [0; 1] [0; 1] [0] =
    Some (Ok ([(1, 1)], [[[None]]; [[None]]; [[None]]; [[None]]])).
Proof. exact C80_clip_refuted_proof. Qed.
Print Assumptions C80_clip_refuted.

(** C80: gain correction reaches four baselines.  With three stands, the last two of six keep the value 2 where the first four get 2/4; with two stands, it
    is an IndexError. *)
Theorem C80_gain_refuted :
  match run80 1 1 [[qi 1 0]; [qi 1 0]; [qi 1 0]; [qi 1 0]; [qi 1 0]; [qi 1 0]] [late 0 1 0; late 1 1 0; late 0 2 0; late 1 2 0; late 0 3 0; late 1 3 0] true true 0 [0; 1; 2] [0; 1; 2] [0; 1; 2; 3; 4; 5] with
  | Some (Ok (bl, out)) => bl = [(1, 1); (1, 2); (1, 3); (2, 2); (2, 3); (3, 3)] /\ map (znth None 0) (znth [] 0 out) = [Some ((1 # 2)%Q, 0%Q); Some ((1 # 2)%Q, 0%Q); Some ((1 # 2)%Q, 0%Q); Some ((1 # 2)%Q, 0%Q); Some (2%Q, 0%Q); Some (2%Q, 0%Q)]
  | _ => False
  end /\
  run80 1 1 sig80 [late 0 1 0; late 1 1 0; late 0 2 0; late 1 2 0] true true 0 [0; 1] [0; 1] [0; 1; 2] = Some (Raise IndexError).
Proof. exact C80_gain_refuted_proof. Qed.
Print Assumptions C80_gain_refuted.

(** C81: XStokes.  When the X and the Y antenna of each stand have the same delay, and the stands are distinct (and listed in the same order for X and Y unless auto-correlations
    are kept), I and Q of every baseline, and all four parameters of the auto-correlations, are those of the
    means of the products of the signals, rotated by the delays.  Missing: U and V of two different stands, and antennas whose delays differ, where the code does not do
    what it should: C81_uv_refuted, C81_delays_refuted. *)
Theorem C81_stokes_partial : forall E rgain freq nChan nTime (signals : list (list (list C))) ants auto (gain : bool) orderX baselines out (d : ant),
  0 < nChan -> 0 <= nTime -> zlen signals = zlen ants ->
  let I1 := positions (fun a => a_pol a =? 0) ants in let I2 := positions (fun a => a_pol a =? 1) ants in
  let A i := znth d i ants in
  NoDup (map (fun i => a_stand (A i)) I1) -> NoDup (map (fun i => a_stand (A i)) I2) ->
  (auto = false -> forall i j, 0 <= i < zlen I1 -> 0 <= j < zlen I1 -> (a_stand (A (znth 0 i I1)) = a_stand (A (znth 0 j I2)) <-> i = j)) ->
  (forall i f, 0 <= i < zlen I1 -> In f freq -> a_delay (A (znth 0 i I1)) f = a_delay (A (znth 0 i I2)) f) ->
  x_stokes E rgain freq nChan nTime signals ants auto gain orderX = Ok (baselines, out) ->
  zlen I2 = zlen I1 /\ baselines = map (fun q => (A (znth 0 (fst q) I1), A (znth 0 (snd q) I2))) (pair_list auto (zlen I1)) /\ zlen out = 4 /\
  (forall p, 0 <= p < 4 -> zlen (znth [] p out) = zlen baselines) /\
  exists tmin, least (map (fun i => a_delay (A i) (znth 0%Qc (zlen freq / 2) freq)) (I1 ++ I2)) tmin /\
    (Permutation orderX (upto 0 (zlen (pair_list true (zlen I1)))) ->
     forall p r i j k, 0 <= p < 4 -> 0 <= r < zlen baselines -> znth (0, 0) r (pair_list auto (zlen I1)) = (i, j) -> 0 <= k < nChan -> p < 2 \/ i = j ->
     let f := znth 0%Qc k freq in
     let turned u t := c_times (znth (0%Qc, 0%Qc) t (znth [] k (znth [] u signals))) (E (f * (a_delay (A u) f - tmin))%Qc) in
     let corr u v := mean_c (map (fun t => times_conj (turned u t) (turned v t)) (upto 0 nTime)) in
     let x1 := znth 0 i I1 in let y1 := znth 0 i I2 in let x2 := znth 0 j I1 in let y2 := znth 0 j I2 in
     znth None k (znth [] r (znth [] p out)) =
     option_map (fun z => if gain then c_times z (rgain (A x1) (A y2) f, 0%Qc) else z) (stokes_vis p (corr x1 x2) (corr x1 y2) (corr y1 x2) (corr y1 y2))).
Proof. exact C81_stokes_partial_proof. Qed.
Print Assumptions C81_stokes_partial.

Example C81_example :
  match run81 sig81 [late 0 7 0; late 1 7 0; late 0 3 1; late 1 3 1] true [2; 1; 0] with
  | Ok (bl, [i; q; u; v]) => bl = [(7, 7); (7, 3); (3, 3)] /\
      i = [[Some ((7 # 2)%Q, 0%Q)]; [Some ((7 # 2)%Q, 0%Q)]; [Some ((7 # 2)%Q, 0%Q)]] /\ q = [[Some ((3 # 2)%Q, 0%Q)]; [Some ((3 # 2)%Q, 0%Q)]; [Some ((3 # 2)%Q, 0%Q)]] /\
      znth [] 0 u = [Some (3%Q, 0%Q)] /\ znth [] 2 u = [Some (3%Q, 0%Q)] /\ znth [] 0 v = [Some (0%Q, 0%Q)] /\ znth [] 2 v = [Some (0%Q, 0%Q)]
  | _ => False
  end.
Proof. exact C81_example_proof. Qed.

(** C81: U and V of two stands are wrong.  In that run, where both stands see the same signal once the delays are undone, U is 3 and V 0 for either stand with itself; for the two together it
    should be the same, but U is 0 and V is -3i. *)
Theorem C81_uv_refuted :
  match run81 sig81 [late 0 7 0; late 1 7 0; late 0 3 1; late 1 3 1] true [2; 1; 0] with
  | Ok (_, [i; q; u; v]) => u = [[Some (3%Q, 0%Q)]; [Some (0%Q, 0%Q)]; [Some (3%Q, 0%Q)]] /\ v = [[Some (0%Q, 0%Q)]; [Some (0%Q, (-3)%Q)]; [Some (0%Q, 0%Q)]]
  | _ => False
  end.
Proof. exact C81_uv_refuted_proof. Qed.
Print Assumptions C81_uv_refuted.

(** C81: one rotation, by the delay of X of the first and that of Y of the second stand, is applied to all products.  If these differ, even I of a stand with itself is no real number. *)
Theorem C81_delays_refuted :
  match run81 [[[qi 1 0]]; [[qi 0 (-1)]]] [late 0 7 0; late 1 7 1] true [0] with
  | Ok (_, [i; _; _; _]) => i = [[Some (0%Q, (-2)%Q)]]
  | _ => False
  end.
Proof. exact C81_delays_refuted_proof. Qed.
Print Assumptions C81_delays_refuted.
