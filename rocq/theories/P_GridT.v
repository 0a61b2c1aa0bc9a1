From Coq Require Import String List ZArith QArith Qround Qabs Qcanon Bool Lia Lqa Permutation.
From Verif Require Import LibList M_Num M_Robust P_Robust M_Py M_Base P_Base M_Corr S_Corr P_Corr P_CorrFX M_Math P_Math M_Grid S_Grid P_Grid P_GridC P_GridP P_GridI.
Import ListNotations.
Open Scope Z_scope.

(** C90: when compute_planes succeeds, the planes are consecutive, non-empty runs that together make up all the visibilities, at most 1024 of them; in data sorted by
    w every member of a plane lies less than wRes above its first, on the scale of the signed square root of w.  This needs data that fill more than one
    plane, or a word in front of the array that is below the number of visibilities (see C90_lone_plane_refuted). *)
Lemma C90_planes_proof : forall (ss : Qc -> Qc) (before : Z) (wRes : Qc) (w : list Qc) (p : list (Z * Z)), (0 < wRes)%Qc -> compute_planes ss before wRes w = Some p ->
  before < zlen w \/ (exists x, In x w /\ (ss (znth 0%Qc 0 w) + wRes <= ss x)%Qc) ->
  concat (map (piece w) p) = w /\ (forall ab, In ab p -> piece w ab <> []) /\ zlen p <= 1024 /\
  (ascending (map ss w) -> forall ab, In ab p -> within wRes (map ss (piece w ab))).
Proof.
  intros ss before wRes w p Hw Hp Hb. destruct (planes_ok ss wRes w before p Hw Hp) as [Hc [Hr Hl]].
  { destruct Hb as [Hb|[x [Hx H]]]; [left; exact Hb|right]. apply (In_nth _ _ 0%Qc) in Hx. destruct Hx as [n [Hn <-]]. exists (Z.of_nat n). split; [unfold zlen; lia|].
    unfold key. unfold znth at 2. destruct (Z.of_nat n <? 0) eqn:T; [apply Z.ltb_lt in T; lia|]. rewrite Nat2Z.id. exact H. }
  assert (Hne : forall a b, In (a, b) p -> 0 <= a /\ a < b /\ b <= zlen w) by (intros a b Hin; apply (chain_in _ _ _ _ _ Hc Hin)).
  split; [rewrite (chain_concat w p 0) by (auto; lia); apply zdrop_0; lia|]. split.
  { intros [a b] Hin E. specialize (Hne a b Hin). apply (f_equal zlen) in E. unfold piece in E. cbn [fst snd] in E. rewrite zlen_ztake, zlen_zdrop in E by lia. change (zlen (@nil Qc)) with 0 in E. lia. }
  split; [exact Hl|]. intros Ha [a b] Hin. pose proof (Hne a b Hin) as B. specialize (Hr a b Hin).
  assert (El : zlen (map ss (piece w (a, b))) = b - a) by (rewrite zlen_map; unfold piece; cbn [fst snd]; rewrite zlen_ztake, zlen_zdrop by lia; lia).
  assert (En : forall i, 0 <= i < b - a -> znth 0%Qc i (map ss (piece w (a, b))) = key ss w (a + i)).
  { intros i Hi. rewrite (znth_map Qc Qc ss 0%Qc) by (rewrite zlen_map in El; lia). unfold piece, key. cbn [fst snd]. rewrite znth_ztake, znth_zdrop by lia. do 2 f_equal. lia. }
  assert (Ek : forall i, 0 <= i < zlen w -> znth 0%Qc i (map ss w) = key ss w i) by (intros i Hi; apply (znth_map Qc Qc ss 0%Qc); exact Hi).
  unfold within. destruct (map ss (piece w (a, b))) as [|x0 r] eqn:Er; [rewrite zlen_nil in El; lia|]. rewrite <- Er in *.
  assert (E0 : x0 = key ss w a). { rewrite <- (Z.add_0_r a), <- En by lia. rewrite Er. reflexivity. } intros y Hy.
  apply (In_nth _ _ 0%Qc) in Hy. destruct Hy as [n [Hn <-]]. assert (Hi : 0 <= Z.of_nat n < b - a) by (unfold zlen in El; lia).
  assert (Ey : nth n (map ss (piece w (a, b))) 0%Qc = key ss w (a + Z.of_nat n)).
  { rewrite <- En by exact Hi. unfold znth. destruct (Z.of_nat n <? 0) eqn:T; [apply Z.ltb_lt in T; lia|]. rewrite Nat2Z.id. reflexivity. }
  rewrite Ey, E0. split.
  - rewrite <- !Ek by lia. apply Ha; [lia|]. rewrite zlen_map. lia.
  - apply Hr. lia.
Qed.
(** A satisfiable case: three visibilities in two planes. *)
Definition three_w : list Qc := [qz 0; qz 0; qz 3].
Lemma C90_planes_example_proof : compute_planes (fun x => x) 7 1%Qc three_w = Some [(0, 2); (2, 3)].
Proof. vm_compute. reflexivity. Qed.
(** C90: the arrays are large enough when the signed square roots of w stay less than 1024 wRes above the first. *)
Lemma C90_room_proof : forall (ss : Qc -> Qc) (before : Z) (wRes : Qc) (w : list Qc), (0 < wRes)%Qc -> w <> [] ->
  (forall x, In x w -> (ss x < ss (znth 0%Qc 0 w) + num 1024 * wRes)%Qc) -> exists p, compute_planes ss before wRes w = Some p.
Proof.
  intros ss before wRes w Hw Hn H. apply planes_some; auto. intros i Hi. unfold key. change (qz 1024) with (num 1024). apply H. apply znth_In. exact Hi.
Qed.
Lemma C90_room_example_proof : exists p, compute_planes (fun x => x) 0 1%Qc three_w = Some p.
Proof. exists [(0, 2); (2, 3)]. vm_compute. reflexivity. Qed.
(** C90, finding: visibilities that all fall in one plane are dropped, all of them, when the word in front of the array planeStop (entry -1, read by line 111) is not
    below their number: no plane is made. *)
Lemma C90_lone_plane_refuted_proof : forall (ss : Qc -> Qc) (before : Z) (wRes : Qc) (w : list Qc), (0 < wRes)%Qc -> w <> [] ->
  (forall x, In x w -> (ss x < ss (znth 0%Qc 0 w) + wRes)%Qc) -> zlen w <= before -> compute_planes ss before wRes w = Some [].
Proof. intros ss before wRes w Hw Hn H Hb. apply planes_lost; auto. intros i Hi. apply H. apply znth_In. exact Hi. Qed.
Definition two_w : list Qc := [qz 0; qz 0].
Lemma C90_lone_plane_example_proof : compute_planes (fun x => x) 33 1%Qc two_w = Some [] /\ compute_planes (fun x => x) 0 1%Qc two_w = Some [(0, 2)].
Proof. split; vm_compute; reflexivity. Qed.
(** C90, finding: a list with more than 1024 planes writes past the end of the arrays. *)
Lemma C90_overrun_refuted_proof : forall (before n : Z), 1025 <= n -> compute_planes (fun x => x) before 1%Qc (map num (range 0 n)) = None.
Proof. intros before n H. apply planes_overrun. exact H. Qed.

(** C91: visibilities with |u| and |v| at most the size of the plane (N cells of uvRes, N at least 4) are gridded within the arrays, and every cell holds the sum of the
    data, each spread by the kernel over the 7 by 7 cells around (u, -v) / uvRes, taken modulo N.  The data and the weights alike. *)
Lemma C91_cells_proof : forall (K : Z -> Qc) (N : Z) (uvRes : Qc) (value : sample -> C) (xs : list sample), 4 <= N -> uvRes <> 0%Qc ->
  (forall s, In s xs -> ((- num N <= s_u s / uvRes)%Qc /\ (s_u s / uvRes <= num N)%Qc) /\ ((- num N <= - (s_v s / uvRes))%Qc /\ (- (s_v s / uvRes) <= num N)%Qc)) ->
  exists g, sub_grid K N uvRes value xs = Some g /\
            forall a b, 0 <= a < N -> 0 <= b < N -> g (N * a + b) = plane_cell K N (map (fun s => ((s_u s / uvRes)%Qc, (- (s_v s / uvRes))%Qc, value s)) xs) a b.
Proof.
  intros K N uvRes value xs HN Hr H. destruct (sub_grid_ok K N HN uvRes value xs (fun s Hs => fit_fits N uvRes Hr s (H s Hs))) as [g [E G]].
  exists g. split; [exact E|]. intros a b Ha Hb. rewrite G by assumption. rewrite (places_eq uvRes Hr). reflexivity.
Qed.
(** C91: nothing is lost: the cells add up to the data, each times the sum of its kernel weights. *)
Lemma C91_total_proof : forall (K : Z -> Qc) (N : Z) (data : list (Qc * Qc * complex)), 0 < N ->
  total_c (map (fun a => total_c (map (fun b => plane_cell K N data a b) (upto 0 N))) (upto 0 N)) = total_c (map (fun d => let '(x, y, z) := d in times_real (whole K y * whole K x)%Qc z) data).
Proof.
  intros K N data HN. rewrite upto_range. induction data as [|[[x y] z] data IH].
  - cbn [map total_c]. assert (Z1 : forall l : list Z, total_c (map (fun _ => (0%Qc, 0%Qc)) l) = (0%Qc, 0%Qc)) by (induction l as [|k l IHl]; cbn [map total_c]; [reflexivity|rewrite IHl; unfold plus; cbn [fst snd]; f_equal; ring]).
    change (fun a => total_c (map (fun b => plane_cell K N [] a b) (range 0 N))) with (fun _ : Z => total_c (map (fun _ : Z => (0%Qc, 0%Qc)) (range 0 N))). rewrite Z1. apply Z1.
  - cbn [map]. rewrite total_c_cons, <- IH.
    assert (D : forall (f g : Z -> complex) l, total_c (map (fun k => plus (f k) (g k)) l) = plus (total_c (map f l)) (total_c (map g l))).
    { intros f g l. induction l as [|k l IHl]; cbn [map total_c]; [unfold plus; cbn [fst snd]; f_equal; ring|]. rewrite IHl. unfold plus. cbn [fst snd]. f_equal; ring. }
    change (fun a => total_c (map (fun b => plane_cell K N ((x, y, z) :: data) a b) (range 0 N)))
      with (fun a => total_c (map (fun b => plus (times_real (share K N y a * share K N x b)%Qc z) (plane_cell K N data a b)) (range 0 N))).
    rewrite (map_ext _ _ (fun a => D (fun b => times_real (share K N y a * share K N x b)%Qc z) (fun b => plane_cell K N data a b) (range 0 N))).
    rewrite (D (fun a => total_c (map (fun b => times_real (share K N y a * share K N x b)%Qc z) (range 0 N)))). change plus with cadd. f_equal.
    change times_real with cscale. rewrite (map_ext _ (fun a => cscale (share K N y a * whole K x)%Qc z)).
    + rewrite (total_c_scale (fun a => share K N y a * whole K x)%Qc). f_equal. rewrite <- (share_total K N y HN). rewrite Qcmult_comm, <- total_scale. apply total_ext. intros. ring.
    + intro a. rewrite (total_c_scale (fun b => share K N y a * share K N x b)%Qc), total_scale, (share_total K N x HN). reflexivity.
Qed.
(** C91: a visibility beyond the plane is neither refused nor left out but put on the cells a whole plane away. *)
Lemma C91_folded_proof : forall (K : Z -> Qc) (N : Z) (x : Qc) (a : Z), share K N (x + num N)%Qc a = share K N x a.
Proof.
  intros K N x a. unfold share, around. rewrite nearest_shift, !upto_range. replace (nearest x + N - 3) with (nearest x - 3 + N) by lia. replace (nearest x + N + 4) with (nearest x + 4 + N) by lia.
  rewrite range_shift, map_map. apply total_ext. intros p _. replace (p + N) with (p + 1 * N) by lia. rewrite Z_mod_plus_full. destruct (p mod N =? a); [|reflexivity].
  unfold weight_at. f_equal. apply Qfloor_comp. rewrite this_plus, this_num, Z.mul_1_l, inject_Z_plus. apply Qmult_comp; [reflexivity|]. apply Qabs_wd. ring.
Qed.
Definition a_kernel (k : Z) : Qc := num (225 - k).
Definition a_sample : sample := mkS (num 1) (num (-2)) (num 0) (num 1, num 0) (num 1, num 0).
Lemma C91_cells_example_proof : (- num 8 <= s_u a_sample / 1)%Qc /\ (s_u a_sample / 1 <= num 8)%Qc /\ (- num 8 <= - (s_v a_sample / 1))%Qc /\ (- (s_v a_sample / 1) <= num 8)%Qc /\
  option_map (fun g => fst (g (8 * 2 + 1))) (sub_grid a_kernel 8 1%Qc s_vis [a_sample]) = Some (num 50625).
Proof. repeat split; unfold Qcle; vm_compute; discriminate. Qed.
(** C91, finding: a visibility further out is written outside the plane: here v three times the size of the plane, whatever the rest. *)
Lemma none_fold {X} (f : X -> option (mem C) -> option (mem C)) : (forall x, f x None = None) -> forall l, fold_left (fun s x => f x s) l None = None.
Proof. intros H l. induction l as [|x l IH]; cbn [fold_left]; [reflexivity|]. rewrite H. exact IH. Qed.
Lemma C91_outside_refuted_proof : forall (K : Z -> Qc) (N : Z) (value : sample -> C) (s : sample) (xs : list sample), 4 <= N -> s_u s = 0%Qc -> s_v s = num (- (3 * N)) ->
  sub_grid K N 1%Qc value (s :: xs) = None.
Proof.
  intros K N value s xs HN Hu Hv. unfold sub_grid. cbn [fold_left].
  assert (Ey : coord N (s_v s / - (1))%Qc = num (3 * N)).
  { rewrite Hv, num_opp. assert (E : (- num (3 * N) / - (1) = num (3 * N))%Qc) by (field; discriminate). rewrite E. unfold coord, qlt.
    assert (T : Qle_bool 0%Qc (num (3 * N)) = true) by (apply Qle_bool_iff; rewrite this_num; change (this 0%Qc) with (inject_Z 0); rewrite <- Zle_Qle; lia). rewrite T. reflexivity. }
  assert (Ex : coord N (s_u s / 1)%Qc = num 0) by (rewrite Hu; vm_compute; reflexivity).
  assert (R : forall n, 0 <= n -> cround (num n) = n).
  { intros n Hn. unfold cround. assert (H0 : (0 <= num n)%Qc) by (unfold Qcle; rewrite this_num; change (this 0%Qc) with (inject_Z 0); rewrite <- Zle_Qle; lia).
    destruct (lround_nearest (num n) H0) as [-> _]. unfold nearest. rewrite (Qfloor_comp _ ((1 # 2) + inject_Z n)) by (rewrite this_num; ring). rewrite floor_shift. reflexivity. }
  assert (Kn : forall n, 0 <= n -> kernel_at K (num n) (-3) = Some (K 192)).
  { intros n Hn. unfold kernel_at, clong. rewrite R by exact Hn. change qz with num.
    assert (E : ((num n - num (n + -3)) * num GRID_KERNEL_OVERSAMPLE = num 192)%Qc).
    { apply Qc_is_canon. rewrite this_mult, this_minus, !this_num, inject_Z_plus. change (inject_Z GRID_KERNEL_OVERSAMPLE) with 64%Q. change (inject_Z (-3)) with (-3)%Q. change (inject_Z 192) with 192%Q. ring. }
    rewrite E. vm_compute. reflexivity. }
  assert (Z0 : grid_sample K N 1%Qc value s (Some (fun _ => c0)) = None).
  { assert (G0 : grid_cell K N (num (3 * N)) (num 0) (value s) (-3) (-3) (Some (fun _ => c0)) = None).
    { unfold grid_cell. rewrite !Kn by lia.
      assert (C1 : cell N (num (3 * N)) (-3) = 3 * N + -3 - N) by (unfold cell; rewrite R by lia; destruct (3 * N + -3 <? 0) eqn:T1; [apply Z.ltb_lt in T1; lia|]; destruct (N <=? 3 * N + -3) eqn:T2; [reflexivity|apply Z.leb_gt in T2; lia]).
      assert (C0 : cell N (num 0) (-3) = N - 3) by (unfold cell; rewrite R by lia; destruct (0 + -3 <? 0) eqn:T; [lia|apply Z.ltb_ge in T; lia]). rewrite C1, C0.
      destruct ((0 <=? N * (3 * N + -3 - N) + (N - 3)) && (N * (3 * N + -3 - N) + (N - 3) <? N * N)) eqn:T3; [apply andb_true_iff in T3; destruct T3 as [_ T3]; apply Z.ltb_lt in T3; nia|reflexivity]. }
    unfold grid_sample. rewrite Ey, Ex. change (fst half_window) with (-3). change (snd half_window) with 4. unfold loop. rewrite (range_cons (-3) 4) by lia. cbn [fold_left]. rewrite G0.
    rewrite (none_fold (fun l s0 => grid_cell K N (num (3 * N)) (num 0) (value s) (-3) l s0)) by reflexivity.
    apply (none_fold (fun m s0 => fold_left (fun s1 k => grid_cell K N (num (3 * N)) (num 0) (value s) m k s1) (-3 :: range (-3 + 1) 4) s0)).
    intro m. apply (none_fold (fun l s0 => grid_cell K N (num (3 * N)) (num 0) (value s) m l s0)). reflexivity. }
  rewrite Z0. apply (none_fold (fun x s0 => grid_sample K N 1%Qc value x s0)). intro x. unfold grid_sample, loop.
  apply (none_fold (fun m s0 => fold_left (fun s1 k => grid_cell K N (coord N (s_v x / - (1))%Qc) (coord N (s_u x / 1)%Qc) (value x) m k s1) (range (fst half_window) (snd half_window)) s0)).
  intro m. apply (none_fold (fun l s0 => grid_cell K N (coord N (s_v x / - (1))%Qc) (coord N (s_u x / 1)%Qc) (value x) m l s0)). reflexivity.
Qed.

(** C92: with planes of N by N cells (N at least 4), visibilities inside it and a plane size that no earlier call of the process differed from, the gridded data and
    beam planes are the sums over the w planes of the planes of C91 transformed, multiplied by the w term of the plane's mean w and transformed back, over N squared; for
    every order in which the threads take the w planes.  ([planar]: the transforms read and write the N by N cells.) *)
Lemma C92_projected_proof : forall (K : Z -> Qc) (root : Qc -> Qc) (E : Qc -> C) (forward backward : Z -> mem C -> mem C) (ss : Qc -> Qc) (N : Z) (uvRes wRes : Qc) (first : option Z) (before : Z)
    (order : list Z) (xs : list sample) (p : list (Z * Z)),
  4 <= N -> uvRes <> 0%Qc -> planar N forward -> planar N backward -> first = None \/ first = Some N -> (forall s, In s xs -> fit N uvRes s) ->
  compute_planes ss before wRes (map s_w xs) = Some p -> Permutation order (upto 0 (zlen p)) ->
  exists uv bm, compute_gridding ss K root E forward backward first before N uvRes wRes order xs = Some (uv, bm) /\
  forall i, 0 <= i < N * N ->
    uv i = total_c (map (fun ab => let run := piece xs ab in
             projected K root E (forward N) (backward N) N uvRes (1 / (num N * num N))%Qc (map (fun s => ((s_u s / uvRes)%Qc, (- (s_v s / uvRes))%Qc, s_vis s)) run) (map s_w run) i) p) /\
    bm i = total_c (map (fun ab => let run := piece xs ab in
             projected K root E (forward N) (backward N) N uvRes (1 / (num N * num N))%Qc (map (fun s => ((s_u s / uvRes)%Qc, (- (s_v s / uvRes))%Qc, s_wgt s)) run) (map s_w run) i) p).
Proof.
  intros K root E forward backward ss N uvRes wRes first before order xs p HN Hr Hf Hb Hfirst H Hp Ho. rewrite upto_range in Ho.
  assert (Es : static_norm first N = (1 / (num N * num N))%Qc) by (destruct Hfirst as [->| ->]; reflexivity).
  destruct (gridding_ok K root E forward backward ss N uvRes HN Hr Hf Hb first before wRes order xs p H Hp Ho) as [uv [bm [E1 E2]]]. exists uv, bm. split; [exact E1|]. rewrite Es in E2. exact E2.
Qed.
(** C92: when all w are zero and the sky fits the transform (2 uvRes^2 > 1), the result is the plane of C91 itself. *)
Lemma total_cell_app K N d1 d2 a b : plane_cell K N (d1 ++ d2) a b = plus (plane_cell K N d1 a b) (plane_cell K N d2 a b).
Proof. unfold plane_cell. rewrite map_app. induction (map _ d1) as [|z l IH]; cbn [app total_c]; [unfold plus; cbn [fst snd]; destruct (total_c _); cbn [fst snd]; f_equal; ring|]. rewrite IH. unfold plus. cbn [fst snd]. f_equal; ring. Qed.
Lemma plane_concat {X} K N (f : list sample -> list (Qc * Qc * complex)) (g : X -> list sample) (l : list X) a b : (forall x y, f (x ++ y) = f x ++ f y) -> f [] = [] ->
  total_c (map (fun x => plane_cell K N (f (g x)) a b) l) = plane_cell K N (f (concat (map g l))) a b.
Proof.
  intros Ha H0. induction l as [|x l IH]; cbn [map concat total_c]; [rewrite H0; reflexivity|]. rewrite Ha, total_cell_app, IH. reflexivity.
Qed.
Lemma piece_map {X Y} (f : X -> Y) l ab : piece (map f l) ab = map f (piece l ab).
Proof. unfold piece, ztake, zdrop. rewrite skipn_map, firstn_map. reflexivity. Qed.
Lemma C92_flat_proof : forall (K : Z -> Qc) (root : Qc -> Qc) (E : Qc -> C) (forward backward : Z -> mem C -> mem C) (ss : Qc -> Qc) (N : Z) (uvRes wRes : Qc) (first : option Z) (before : Z)
    (order : list Z) (xs : list sample) (p : list (Z * Z)),
  4 <= N -> (1 < 2 * (this uvRes * this uvRes))%Q -> planar N forward -> planar N backward -> homogeneous N backward ->
  (forall g i, 0 <= i < N * N -> backward N (forward N g) i = cscale (num N * num N)%Qc (g i)) -> E 0%Qc = (1%Qc, 0%Qc) ->
  first = None \/ first = Some N -> (forall s, In s xs -> fit N uvRes s) -> (forall s, In s xs -> s_w s = 0%Qc) -> (0 < wRes)%Qc ->
  before < zlen xs -> compute_planes ss before wRes (map s_w xs) = Some p -> Permutation order (upto 0 (zlen p)) ->
  exists uv bm, compute_gridding ss K root E forward backward first before N uvRes wRes order xs = Some (uv, bm) /\
  forall a b, 0 <= a < N -> 0 <= b < N ->
    uv (N * a + b) = plane_cell K N (map (fun s => ((s_u s / uvRes)%Qc, (- (s_v s / uvRes))%Qc, s_vis s)) xs) a b /\
    bm (N * a + b) = plane_cell K N (map (fun s => ((s_u s / uvRes)%Qc, (- (s_v s / uvRes))%Qc, s_wgt s)) xs) a b.
Proof.
  intros K root E forward backward ss N uvRes wRes first before order xs p HN Hu Hf Hb Hh Hinv HE Hfirst H Hw0 HwRes Hbef Hp Ho.
  assert (Hr : uvRes <> 0%Qc) by (intro Z0; rewrite Z0 in Hu; apply (Qlt_irrefl 0); eapply Qlt_trans; [|exact Hu]; reflexivity).
  rewrite upto_range in Ho. assert (Es : static_norm first N = (1 / (qz N * qz N))%Qc) by (destruct Hfirst as [->| ->]; reflexivity).
  destruct (gridding_ok K root E forward backward ss N uvRes HN Hr Hf Hb first before wRes order xs p H Hp Ho) as [uv [bm [E1 E2]]]. exists uv, bm. split; [exact E1|]. rewrite Es in E2.
  destruct (C90_planes_proof ss before wRes (map s_w xs) p HwRes Hp) as [Hcat _]; [left; rewrite zlen_map; exact Hbef|].
  destruct (planes_ok ss wRes (map s_w xs) before p HwRes Hp) as [Hch _]; [left; rewrite zlen_map; exact Hbef|]. rewrite zlen_map in Hch.
  assert (Cx : concat (map (piece xs) p) = xs) by (rewrite (chain_concat xs p 0) by (auto; lia); apply zdrop_0; lia).
  intros a b Ha Hb'. assert (Hi : 0 <= N * a + b < N * N) by nia. destruct (E2 (N * a + b) Hi) as [-> ->].
  assert (Dv : (N * a + b) / N = a) by (symmetry; apply (Z.div_unique_pos _ _ a b); lia). assert (Md : (N * a + b) mod N = b) by (symmetry; apply (Z.mod_unique_pos _ _ a b); lia).
  assert (G : forall value, total_c (map (fun ab => result K root E forward backward N uvRes (1 / (qz N * qz N))%Qc value (piece xs ab) (N * a + b)) p) = plane_cell K N (places uvRes value xs) a b).
  { intro value. transitivity (total_c (map (fun ab => plane_cell K N (places uvRes value (piece xs ab)) a b) p)).
    - f_equal. apply map_ext_in. intros ab Hab. rewrite (result_flat K root E forward backward ss N uvRes HN Hr Hb Hh) by (auto; intros s Hs; apply Hw0; unfold piece in Hs; rewrite <- (ztake_zdrop (fst ab) xs); apply in_app_iff; right; rewrite <- (ztake_zdrop (snd ab - fst ab) (zdrop (fst ab) xs)); apply in_app_iff; left; exact Hs).
      rewrite Dv, Md. reflexivity.
    - rewrite (plane_concat K N (places uvRes value) (piece xs) p a b); [rewrite Cx; reflexivity|intros; unfold places; apply map_app|reflexivity]. }
  split; apply G.
Qed.
(** C92, finding: the factor 1/N^2 is kept from the first call of the process.  When that was made with n by n cells, the planes of a later call with N by N cells are
    (N/n)^2 times what they should be, and so differ wherever they are not zero. *)
Lemma C92_static_refuted_proof : forall (K : Z -> Qc) (root : Qc -> Qc) (E : Qc -> C) (forward backward : Z -> mem C -> mem C) (ss : Qc -> Qc) (n N : Z) (uvRes wRes : Qc) (before : Z)
    (order : list Z) (xs : list sample) (p : list (Z * Z)),
  4 <= N -> 0 < n -> n <> N -> uvRes <> 0%Qc -> planar N forward -> planar N backward -> homogeneous N backward -> (forall s, In s xs -> fit N uvRes s) ->
  compute_planes ss before wRes (map s_w xs) = Some p -> Permutation order (upto 0 (zlen p)) ->
  exists uv bm uv' bm', compute_gridding ss K root E forward backward None before N uvRes wRes order xs = Some (uv, bm) /\
                        compute_gridding ss K root E forward backward (Some n) before N uvRes wRes order xs = Some (uv', bm') /\
  forall i, 0 <= i < N * N -> uv' i = times_real (num N * num N / (num n * num n))%Qc (uv i) /\ bm' i = times_real (num N * num N / (num n * num n))%Qc (bm i) /\ (uv i <> (0%Qc, 0%Qc) -> uv' i <> uv i).
Proof.
  intros K root E forward backward ss n N uvRes wRes before order xs p HN Hn Hne Hr Hf Hb Hh H Hp Ho. rewrite upto_range in Ho.
  destruct (gridding_ok K root E forward backward ss N uvRes HN Hr Hf Hb None before wRes order xs p H Hp Ho) as [uv [bm [E1 E2]]].
  destruct (gridding_ok K root E forward backward ss N uvRes HN Hr Hf Hb (Some n) before wRes order xs p H Hp Ho) as [uv' [bm' [F1 F2]]].
  exists uv, bm, uv', bm'. split; [exact E1|]. split; [exact F1|]. intros i Hi. destruct (E2 i Hi) as [Eu Ebm]. destruct (F2 i Hi) as [Fu Fb].
  pose proof (num_nz n ltac:(lia)) as Nn. pose proof (num_nz N ltac:(lia)) as NN. set (c := (num N * num N / (num n * num n))%Qc).
  assert (Ec : static_norm (Some n) N = (c * static_norm None N)%Qc) by (unfold static_norm, c; change qz with num; field; auto).
  assert (G : forall value, total_c (map (fun ab => result K root E forward backward N uvRes (static_norm (Some n) N) value (piece xs ab) i) p)
              = cscale c (total_c (map (fun ab => result K root E forward backward N uvRes (static_norm None N) value (piece xs ab) i) p))).
  { intro value. rewrite <- total_c_times. f_equal. apply map_ext. intro ab. rewrite Ec. apply (result_scale K root E forward backward N uvRes Hb Hh). exact Hi. }
  assert (U : uv' i = times_real c (uv i)) by (rewrite Fu, Eu; apply G).
  split; [exact U|]. split; [rewrite Fb, Ebm; apply G|].
  intros Hnz He. rewrite U in He. assert (C1 : (c - 1)%Qc <> 0%Qc).
  { intro Z0. assert (Q : (num N * num N = num n * num n)%Qc) by (transitivity (c * (num n * num n))%Qc; [unfold c; field; auto|]; replace c with 1%Qc; [ring|]; replace c with (c - 1 + 1)%Qc by ring; rewrite Z0; ring).
    apply (f_equal this) in Q. assert (Q' : (this (num N * num N)%Qc == this (num n * num n)%Qc)%Q) by (rewrite Q; reflexivity). rewrite !this_mult, !this_num, <- !inject_Z_mult in Q'.
    unfold Qeq in Q'. cbn in Q'. nia. }
  apply Hnz. destruct (uv i) as [x y]. unfold times_real in He. cbn [fst snd] in He. pose proof (f_equal fst He) as Hx. pose proof (f_equal snd He) as Hy. cbn [fst snd] in Hx, Hy.
  assert (X : forall z : Qc, (c * z)%Qc = z -> z = 0%Qc).
  { intros z Hz. destruct (Qcmult_integral (c - 1)%Qc z) as [A|A]; [|contradiction|exact A]. replace ((c - 1) * z)%Qc with (c * z - z)%Qc by ring. rewrite Hz. ring. }
  rewrite (X x Hx), (X y Hy). reflexivity.
Qed.
(** There are such transforms: the discrete Fourier transform of 4 by 4 planes. *)
Definition i_power (k : Z) : C := match k mod 4 with 0 => (1%Qc, 0%Qc) | 1 => (0%Qc, 1%Qc) | 2 => ((- (1))%Qc, 0%Qc) | _ => (0%Qc, (- (1))%Qc) end.
Definition dft4 (sign n : Z) (g : mem C) : mem C :=
  fun i => total_c (map (fun j => cmul (i_power (sign * (i / 4 * (j / 4) + i mod 4 * (j mod 4)))) (g j)) (range 0 16)).
Lemma C92_transform_example_proof : planar 4 (dft4 (-1)) /\ homogeneous 4 (dft4 1).
Proof.
  split.
  - intros g g' H i _. unfold dft4. f_equal. apply map_ext_in. intros j Hj. apply range_in in Hj. rewrite H by lia. reflexivity.
  - intros c g i _. unfold dft4. rewrite <- total_c_times. f_equal. apply map_ext. intro j. destruct (i_power _), (g j). unfold cmul, cscale. cbn [fst snd]. f_equal; ring.
Qed.
Lemma cmul_total (z : C) {X} (f : X -> C) l : cmul z (total_c (map f l)) = total_c (map (fun x => cmul z (f x)) l).
Proof. induction l as [|x l IH]; cbn [map total_c]; [unfold cmul; cbn [fst snd]; f_equal; ring|]. rewrite <- IH. destruct z, (f x), (total_c (map f l)). unfold cmul, plus. cbn [fst snd]. f_equal; ring. Qed.
Lemma total_cmul (z : C) {X} (f : X -> C) l : cmul (total_c (map f l)) z = total_c (map (fun x => cmul (f x) z) l).
Proof. induction l as [|x l IH]; cbn [map total_c]; [unfold cmul; cbn [fst snd]; f_equal; ring|]. rewrite <- IH. destruct z, (f x), (total_c (map f l)). unfold cmul, plus. cbn [fst snd]. f_equal; ring. Qed.
Lemma total_c_plus {X} (f g : X -> C) l : total_c (map (fun k => cadd (f k) (g k)) l) = cadd (total_c (map f l)) (total_c (map g l)).
Proof. induction l as [|k l IHl]; cbn [map total_c]; [unfold cadd; cbn [fst snd]; f_equal; ring|]. rewrite IHl. unfold cadd, plus. cbn [fst snd]. f_equal; ring. Qed.
Lemma total_c_swap {X Y} (f : X -> Y -> C) l r : total_c (map (fun x => total_c (map (f x) r)) l) = total_c (map (fun y => total_c (map (fun x => f x y) l)) r).
Proof.
  induction l as [|x l IH]; cbn [map total_c].
  - induction r as [|y r IHr]; cbn [map total_c]; [reflexivity|]. rewrite <- IHr. unfold plus. cbn [fst snd]. f_equal; ring.
  - rewrite IH. change plus with cadd. rewrite <- total_c_plus. reflexivity.
Qed.
Definition same_c (x y : C) : bool := Qeq_bool (this (fst x)) (this (fst y)) && Qeq_bool (this (snd x)) (this (snd y)).
Lemma same_c_eq x y : same_c x y = true -> x = y.
Proof. unfold same_c. intro H. apply andb_true_iff in H. destruct H as [A B]. destruct x, y. cbn [fst snd] in *. f_equal; apply Qc_is_canon; apply Qeq_bool_iff; assumption. Qed.
Lemma mul_c0 (z : C) : cmul c0 z = c0.
Proof. destruct z as [a b]. unfold cmul, c0, M_Corr.c0. cbn [fst snd]. apply (f_equal2 pair); ring. Qed.
Definition bin4 (sign i j : Z) : C := i_power (sign * (i / 4 * (j / 4) + i mod 4 * (j mod 4))).
Lemma orthogonal4 : forallb (fun i => forallb (fun k => same_c (total_c (map (fun j => cmul (bin4 1 i j) (bin4 (-1) j k)) (range 0 16))) (if k =? i then (num 16, 0%Qc) else c0)) (range 0 16)) (range 0 16) = true.
Proof. vm_compute. reflexivity. Qed.
Lemma C92_inverse_example_proof : forall g i, 0 <= i < 4 * 4 -> dft4 1 4 (dft4 (-1) 4 g) i = cscale (num 4 * num 4)%Qc (g i).
Proof.
  intros g i Hi. unfold dft4.
  rewrite (map_ext _ (fun j => total_c (map (fun k => cmul (cmul (bin4 1 i j) (bin4 (-1) j k)) (g k)) (range 0 16)))).
  2:{ intro j. rewrite cmul_total. f_equal. apply map_ext. intro k. unfold bin4. generalize (i_power (1 * (i / 4 * (j / 4) + i mod 4 * (j mod 4)))), (i_power (-1 * (j / 4 * (k / 4) + j mod 4 * (k mod 4)))), (g k).
      intros [a b] [c d] [e f]. unfold cmul. cbn [fst snd]. f_equal; ring. }
  rewrite (total_c_swap (fun j k => cmul (cmul (bin4 1 i j) (bin4 (-1) j k)) (g k))).
  rewrite (map_ext_in _ (fun k => cmul (if k =? i then (num 16, 0%Qc) else c0) (g k))).
  2:{ intros k Hk. apply range_in in Hk. rewrite <- (total_cmul (g k) (fun j => cmul (bin4 1 i j) (bin4 (-1) j k))). f_equal. apply same_c_eq.
      pose proof orthogonal4 as O. rewrite forallb_forall in O. specialize (O i (proj2 (range_in 0 16 i) Hi)). rewrite forallb_forall in O. apply (O k). apply range_in. exact Hk. }
  rewrite (range_app 0 i 16), (range_cons i 16) by lia. rewrite map_app. cbn [map]. rewrite Z.eqb_refl.
  assert (Z0 : forall lo hi, (forall k, lo <= k < hi -> k <> i) -> total_c (map (fun k => cmul (if k =? i then (num 16, 0%Qc) else c0) (g k)) (range lo hi)) = c0).
  { intros lo hi Hd. rewrite (map_ext_in _ (fun _ => c0)).
    - induction (range lo hi) as [|k l IH]; cbn [map total_c]; [reflexivity|]. rewrite IH. unfold plus, c0. cbn [fst snd]. f_equal; ring.
    - intros k Hk. apply range_in in Hk. destruct (Z.eqb_spec k i) as [->|_]; [exfalso; apply (Hd i); auto; lia|]. generalize (g k). intros [a b]. apply mul_c0. }
  rewrite total_c_app. cbn [total_c]. rewrite !Z0 by (intros; lia). change (num 4 * num 4)%Qc with (num 4 * num 4)%Qc. assert (E16 : (num 4 * num 4 = num 16)%Qc) by (apply Qc_is_canon; reflexivity).
  rewrite E16. generalize (num 16). intro n. destruct (g i). unfold plus, cadd, cmul, cscale, c0. cbn [fst snd]. f_equal; ring.
Qed.

(** C93: the image of one data set is made from all its visibilities of the polarization asked for and carries the time of the data set; a polarization that is missing
    gives RuntimeError.  ([project]: append_hermitian, the sorting and the gridder.) *)
Lemma C93_single_proof : forall (project : list sample -> res img) (empty : img) (pol : string) (im : option gimg) (pols : list (string * list (sample * bool))) (mjd : Qc),
  (forall xs, find (fun p => (fst p =? pol)%string) pols = Some (pol, xs) -> build_one project empty pol im (mkD pols mjd) = bind (project (map fst xs)) (fun g => Ok (mkG g (Some mjd)))) /\
  ((forall xs, ~ In (pol, xs) pols) -> build_one project empty pol im (mkD pols mjd) = Raise RuntimeError).
Proof.
  intros project empty pol im pols mjd. unfold build_one. cbn [d_pols d_mjd]. split.
  - intros xs H. rewrite H. reflexivity.
  - intro H. destruct (find _ pols) as [[q xs]|] eqn:F; [|reflexivity]. exfalso. apply find_some in F. destruct F as [I T]. cbn [fst] in T. apply String.eqb_eq in T. subst q. apply (H xs I).
Qed.
Definition some_pols : list (string * list (sample * bool)) := [("XX"%string, [(a_sample, true)])].
Lemma C93_single_example_proof : find (fun p => (fst p =? "XX")%string) some_pols = Some ("XX"%string, [(a_sample, true)]).
Proof. reflexivity. Qed.
(** C93, finding: of a collection of data sets only the last is in the image: the planes of the object are assigned, not added to.  The others can be exchanged for
    anything that can be gridded at all. *)
Lemma C93_last_only_refuted_proof : forall (project : list sample -> res img) (empty : img) (pol : string) (im : option gimg) (ds ds' : list dset) (d : dset),
  (forall e, In e (ds ++ ds') -> forall i, exists g, build_one project empty pol i e = Ok g) ->
  build_all project empty pol im (ds ++ [d]) = build_all project empty pol im (ds' ++ [d]).
Proof.
  intros project empty pol im ds ds' d H.
  assert (G : forall l im, (forall e, In e l -> forall i, exists g, build_one project empty pol i e = Ok g) -> build_all project empty pol im (l ++ [d]) = bind (build_one project empty pol None d) (fun g => Ok (Some g))).
  { assert (One : forall i, build_one project empty pol i d = build_one project empty pol None d) by (intro i; unfold build_one; destruct (find _ (d_pols d)) as [[q xs]|]; reflexivity).
    induction l as [|e l IH]; intros i Hl; unfold build_all; cbn [app fold_left bind].
    - rewrite One. destruct (build_one project empty pol None d); reflexivity.
    - destruct (Hl e (or_introl eq_refl) i) as [g E]. rewrite E. cbn [bind]. apply (IH (Some g)). intros e' He'. apply Hl. right. exact He'. }
  rewrite !G; [reflexivity| |]; intros e He; apply H; apply in_app_iff; auto.
Qed.
(** C93, finding: masked visibilities are gridded like the others. *)
Lemma C93_mask_ignored_refuted_proof : forall (project : list sample -> res img) (empty : img) (pol : string) (im : option gimg) (xs xs' : list (sample * bool)) (mjd : Qc), map fst xs = map fst xs' ->
  build_one project empty pol im (mkD [(pol, xs)] mjd) = build_one project empty pol im (mkD [(pol, xs')] mjd).
Proof. intros project empty pol im xs xs' mjd H. unfold build_one. cbn [d_pols d_mjd find fst]. rewrite String.eqb_refl, H. reflexivity. Qed.
Definition a_dset (z : Z) : dset := mkD [("XX"%string, [(mkS (num z) (num 0) (num 0) (num 1, num 0) (num 1, num 0), true)])] (num z).
Definition a_project (xs : list sample) : res img := Ok (mkImg (map (fun s => Some (s_vis s)) xs) [map (fun s => Some (s_wgt s)) xs]).
Lemma C93_last_only_example_proof : forall e, In e ([a_dset 1] ++ [a_dset 2]) -> forall i, exists g, build_one a_project (mkImg [] [[]]) "XX" i e = Ok g.
Proof. intros e [<-|[<-|[]]] i; eexists; reflexivity. Qed.

(** C94: natural weighting hands the stored plane, tapered if asked, to the transform and changes nothing; an unknown scheme is ValueError and changes nothing. *)
Lemma C94_natural_proof : forall (which : Z) (robust : Qc) (taper : option (list Qc)) (im : img) (scheme : string),
  gen_img which "natural" robust taper im = (im, Ok (match taper with None => array_of which im | Some t => multiply (map Some t) (array_of which im) end)) /\
  (scheme <> "natural"%string -> scheme <> "uniform"%string -> scheme <> "briggs"%string -> gen_img which scheme robust taper im = (im, Raise ValueError)).
Proof.
  intros which robust taper im scheme. split; [reflexivity|]. intros H1 H2 H3. unfold gen_img. cbn [existsb].
  apply String.eqb_neq in H1, H2, H3. rewrite H1, H2, H3. reflexivity.
Qed.
Lemma C94_natural_example_proof : "xx"%string <> "natural"%string /\ "xx"%string <> "uniform"%string /\ "xx"%string <> "briggs"%string.
Proof. repeat split; discriminate. Qed.
(** C94: on an object with finite planes of one size, image() with uniform weighting hands over each cell of the uv plane divided by its gridded weight, and zero where that is
    zero; with Briggs weighting each cell divided by 1 + w S, S = 25 10^(-2 robust) (sum w) / (sum w^2). *)
Lemma C94_uniform_partial_proof : forall (uv bm : list complex) (more : list (list (option C))) (robust : Qc), length uv = length bm ->
  snd (image "uniform" robust None (object uv bm more)) = Ok (map Some (map uniform_cell (combine (map fst bm) uv))).
Proof.
  intros uv bm more robust H. destruct (zip_form uv bm H) as [l [-> ->]]. rewrite uniform_uv. cbn [snd]. unfold finite. do 2 f_equal. rewrite map_map, combine_maps, map_map. reflexivity.
Qed.
Lemma C94_briggs_partial_proof : forall (uv bm : list complex) (more : list (list (option C))) (robust : Qc), length uv = length bm -> let w := map fst bm in let s := (num 25 * robust * total w / sum_sq w)%Qc in
  total w <> 0%Qc -> sum_sq w <> 0%Qc -> (forall x, In x w -> (1 + x * s)%Qc <> 0%Qc) ->
  snd (image "briggs" robust None (object uv bm more)) = Ok (map Some (map (briggs_cell s) (combine w uv))).
Proof.
  intros uv bm more robust H w s H1 H2 H3. unfold s, w in *. clear w s. destruct (zip_form uv bm H) as [l [-> ->]].
  assert (E : map fst (map fst l) = map (fun p => fst (fst p)) l) by apply map_map. rewrite E in *. rewrite briggs_uv by assumption. cbn [snd]. unfold finite. do 2 f_equal.
  rewrite combine_maps, map_map. reflexivity.
Qed.
(** C94: the taper multiplies the weighted cells. *)
Lemma C94_taper_proof : forall (which : Z) (scheme : string) (robust : Qc) (t : list Qc) (im : img) (a : list (option C)), snd (gen_img which scheme robust None im) = Ok a ->
  snd (gen_img which scheme robust (Some t) im) = Ok (map (fun p => option_map (times_real (fst p)) (snd p)) (combine t a)) /\
  fst (gen_img which scheme robust (Some t) im) = fst (gen_img which scheme robust None im).
Proof.
  intros which scheme robust t im a H. unfold gen_img in *. destruct (negb (existsb (String.eqb scheme) ["natural"%string; "uniform"%string; "briggs"%string])); [discriminate|].
  cbn [snd fst] in *. split; [|reflexivity]. injection H as H. rewrite H. f_equal. unfold multiply. clear H. revert a. induction t as [|x t IH]; intros [|y a]; cbn [map combine]; try reflexivity.
  rewrite IH. destruct y; reflexivity.
Qed.
(** C94, finding: image() with uniform (or Briggs) weighting overwrites the stored plane, so asking again divides by the weights again: here, weight 2 and datum 8, 4 the first
    time, 2 the second time, and natural weighting then gives 2 instead of 8. *)
Definition one_cell : img := object [(num 8, 0%Qc)] [(num 2, 0%Qc)] [].
Definition shown (r : res (list (option C))) : list (option (Q * Q)) := match r with Ok l => map (option_map (fun z => (this (fst z), this (snd z)))) l | Raise _ => [] end.
Lemma C94_repeated_refuted_proof : let r1 := image "uniform" 1%Qc None one_cell in let r2 := image "uniform" 1%Qc None (fst r1) in let r3 := image "natural" 1%Qc None (fst r2) in
  shown (snd r1) = [Some (4, 0)%Q] /\ shown (snd r2) = [Some (2, 0)%Q] /\ shown (snd r3) = [Some (2, 0)%Q] /\ shown (snd (image "natural" 1%Qc None one_cell)) = [Some (8, 0)%Q].
Proof. repeat split; vm_compute; reflexivity. Qed.
(** C94: bm_image() of a later term with uniform weighting hands over that beam plane, each cell divided by its gridded weight and zero where that is zero; the uv plane, the
    weights and the other beam planes stay as they are. *)
Lemma C94_beam_term_partial_proof : forall (uv bm b : list complex) (before after : list (list (option C))) (robust : Qc), length b = length bm ->
  let r := bm_image (1 + zlen before) "uniform" robust None (object uv bm (before ++ map Some b :: after)) in
  let cells := map Some (map uniform_cell (combine (map fst bm) b)) in
  snd r = Ok cells /\ i_uv (fst r) = map Some uv /\ i_bm (fst r) = map Some bm :: before ++ cells :: after.
Proof.
  intros uv bm b before after robust H. destruct (zip_form b bm H) as [l [-> ->]]. pose proof (uniform_term l uv before after robust None) as U. unfold finite in U. cbv zeta.
  match goal with |- context [bm_image ?a ?b ?c ?d ?e] => set (r := bm_image a b c d e) end. match type of U with _ = ?y => assert (Er : r = y) by exact U end. rewrite Er. clear r U Er.
  cbn [fst snd object i_uv i_bm]. assert (E : map uniform_cell (combine (map fst (map fst l)) (map snd l)) = map (fun p => uniform_cell (both p)) l) by
    (rewrite map_map, combine_maps, map_map; reflexivity).
  assert (E2 : map Some (map uniform_cell (combine (map fst (map fst l)) (map snd l))) = map Some (map (fun p => uniform_cell (both p)) l)) by (exact (f_equal (map Some) E)).
  split; [exact (f_equal Ok (eq_sym E2))|]. split; [reflexivity|]. exact (f_equal (fun c => map Some (map fst l) :: before ++ c :: after) (eq_sym E2)).
Qed.
Lemma C94_beam_term_example_proof : let r := bm_image 1 "uniform" 1%Qc None (object [(num 8, 0%Qc)] [(num 2, 0%Qc)] [map Some [(num 6, 0%Qc)]; map Some [(num 4, 0%Qc)]]) in
  shown (snd r) = [Some (3, 0)%Q] /\ map (fun p => shown (Ok p)) (i_bm (fst r)) = [[Some (2, 0)%Q]; [Some (3, 0)%Q]; [Some (4, 0)%Q]].
Proof. split; vm_compute; reflexivity. Qed.
(** C94, finding: the same in general: after image() with uniform weighting the stored plane is the weighted one. *)
Lemma C94_overwritten_refuted_proof : forall (uv bm : list complex) (more : list (list (option C))) (robust : Qc), length uv = length bm ->
  i_uv (fst (image "uniform" robust None (object uv bm more))) = map Some (map uniform_cell (combine (map fst bm) uv)).
Proof.
  intros uv bm more robust H. destruct (zip_form uv bm H) as [l [-> ->]]. rewrite uniform_uv. cbn [fst]. unfold object, finite. cbn [i_uv]. apply (f_equal (map Some)). assert (E : map fst (map fst l) = map (fun p : complex * complex => fst (fst p)) l) by apply map_map. etransitivity; [|apply (f_equal (fun w => map uniform_cell (combine w (map snd l)))); symmetry; exact E]. rewrite combine_maps, map_map. reflexivity.
Qed.
(** C94, finding: bm_image() with uniform weighting is not finite in any cell without weight: the weights are looked up in the plane being divided, where the zero has become NaN. *)
Lemma C94_beam_refuted_proof : forall (uv bm : list complex) (more : list (list (option C))) (robust : Qc) (i : Z), 0 <= i < zlen bm -> fst (znth (0%Qc, 0%Qc) i bm) = 0%Qc ->
  exists a, snd (bm_image 0 "uniform" robust None (object uv bm more)) = Ok a /\ znth None i a = None.
Proof.
  intros uv bm more robust i Hi Hz. unfold bm_image, gen_img. cbn [existsb String.eqb Ascii.eqb Bool.eqb orb negb snd].
  assert (Er : map recip (wgt_of (object uv bm more)) = map (fun z : complex => recip (Some (fst z))) bm) by (rewrite wgt_object, map_map; reflexivity). rewrite Er.
  destruct (reweigh_bm uv bm more (fun w => recip (Some w))) as [more' E]. change complex with C in *. change (Qc * Qc)%type with C in *. rewrite E.
  exists (map (fun z : C => let y := times (recip (Some (fst z))) (Some z) in if is_zero (option_map fst y) then Some c0 else y) bm). split; [reflexivity|].
  rewrite (znth_map C (option C) _ (0%Qc, 0%Qc) None) by exact Hi. cbn zeta. rewrite Hz. reflexivity.
Qed.
Lemma C94_beam_example_proof : 0 <= 0 < zlen [(0%Qc, 0%Qc)] /\ fst (znth (0%Qc, 0%Qc) 0 [(0%Qc, 0%Qc)]) = 0%Qc.
Proof. split; [cbn; lia|reflexivity]. Qed.
