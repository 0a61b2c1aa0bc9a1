(** The projected planes and their sum. *)
From Coq Require Import List ZArith QArith Qround Qabs Qcanon Bool Lia Lqa Permutation.
From Verif Require Import LibList M_Num M_Base P_Base M_Corr S_Corr P_Corr M_Robust P_Robust P_CorrFX M_Math P_Math M_Grid S_Grid P_Grid P_GridC.
Import ListNotations.
Open Scope Z_scope.

Lemma c_times_mul x y : c_times x y = cmul x y. Proof. destruct x, y. reflexivity. Qed.
Lemma half_iff N k : (N / 2 <? k) = negb (2 * k <=? N).
Proof.
  pose proof (Z.div_mod N 2 ltac:(lia)). pose proof (Z.mod_pos_bound N 2 ltac:(lia)).
  destruct (Z.ltb_spec (N / 2) k), (Z.leb_spec (2 * k) N); cbn [negb]; try reflexivity; lia.
Qed.
Lemma num_opp n : num (- n) = (- num n)%Qc.
Proof. apply Qc_is_canon. unfold num, Qcopp, Q2Qc. cbn [this]. rewrite !Qred_correct, inject_Z_opp. reflexivity. Qed.
Lemma num_nz n : n <> 0 -> num n <> 0%Qc.
Proof. intros H E. apply (f_equal this) in E. assert (Q : (this (num n) == 0)%Q) by (rewrite E; reflexivity). rewrite this_num in Q. change 0%Q with (inject_Z 0) in Q. apply H. unfold Qeq in Q. cbn in Q. lia. Qed.
Lemma qlt_1 (r : Qc) : qlt r 1%Qc = negb (Qle_bool 1 (this r)). Proof. reflexivity. Qed.
Lemma w_kernel_ok root E N res w a b : 0 < N -> res <> 0%Qc -> w_kernel root E N res w a b = w_term root E N res w a b.
Proof.
  intros HN Hr. pose proof (num_nz N ltac:(lia)) as Hn. unfold w_kernel, w_term, cosine. cbn zeta. rewrite !half_iff. change qz with num.
  set (m := num (if negb (2 * a <=? N) then a - N else a)). set (l := num (if negb (2 * b <=? N) then N - b else b)).
  set (m' := num (if 2 * a <=? N then a else a - N)). set (l' := num (if 2 * b <=? N then b else b - N)).
  assert (Em : m = m') by (unfold m, m'; destruct (2 * a <=? N); reflexivity).
  assert (El : (l * l = l' * l')%Qc).
  { unfold l, l'. destruct (2 * b <=? N); cbn [negb]; [reflexivity|]. replace (N - b) with (- (b - N)) by lia. rewrite num_opp. ring. }
  assert (ER : (l / num N / res * (l / num N / res) + m / num N / res * (m / num N / res) = m' / (num N * res) * (m' / (num N * res)) + l' / (num N * res) * (l' / (num N * res)))%Qc).
  { rewrite Em. transitivity ((l * l + m' * m') / (num N * res * (num N * res)))%Qc; [field; auto|]. rewrite El. field. auto. }
  rewrite ER, qlt_1. set (r := (m' / (num N * res) * (m' / (num N * res)) + l' / (num N * res) * (l' / (num N * res)))%Qc) in *.
  destruct (Qle_bool 1 (this r)); cbn [negb]; [reflexivity|]. f_equal.
  assert (E1 : (1 - l / num N / res * (l / num N / res) - m / num N / res * (m / num N / res) = 1 - r)%Qc) by (rewrite <- ER; ring). rewrite E1. ring.
Qed.
Lemma w_mean_ok xs : w_mean xs = mean_of (map s_w xs).
Proof.
  unfold w_mean, mean_of. rewrite zlen_map, qz_num. f_equal.
  assert (G : forall l a, fold_left (fun s x => (s + s_w x)%Qc) l a = (a + total (map s_w l))%Qc) by (induction l as [|x l IH]; intro a; cbn [fold_left map total]; [ring|rewrite IH; ring]).
  rewrite G. ring.
Qed.

Section Sum.
Context (K : Z -> Qc) (root : Qc -> Qc) (E : Qc -> C) (forward backward : Z -> mem C -> mem C) (ss : Qc -> Qc) (N : Z) (uvRes : Qc).
Hypothesis HN : 4 <= N.
Hypothesis Hres : uvRes <> 0%Qc.
(** A transform of the plane reads and writes the plane. *)
Definition planar (f : Z -> mem C -> mem C) : Prop := forall g g', (forall i, 0 <= i < N * N -> g i = g' i) -> forall i, 0 <= i < N * N -> f N g i = f N g' i.
Hypothesis Hf : planar forward.
Hypothesis Hb : planar backward.
Definition places (value : sample -> C) (xs : list sample) : list (Qc * Qc * C) := map (fun s => ((s_u s / uvRes)%Qc, (- (s_v s / uvRes))%Qc, value s)) xs.
Definition result (scale : Qc) (value : sample -> C) (xs : list sample) : Z -> C := projected K root E (forward N) (backward N) N uvRes scale (places value xs) (map s_w xs).
Definition fit (s : sample) : Prop := in_plane N (s_u s / uvRes)%Qc /\ in_plane N (- (s_v s / uvRes))%Qc.
Lemma neg_res v : (v / - uvRes = - (v / uvRes))%Qc.
Proof. field. split; [exact Hres|]. intro H. apply Hres. rewrite <- (Qcopp_involutive uvRes), H. reflexivity. Qed.
Lemma fit_fits s : fit s -> fits N uvRes s.
Proof. intros [H1 H2]. split; [exact H1|]. rewrite neg_res. exact H2. Qed.
Lemma places_eq value xs : map (fun s => ((s_u s / uvRes)%Qc, (s_v s / - uvRes)%Qc, value s)) xs = places value xs.
Proof. apply map_ext. intro s. rewrite neg_res. reflexivity. Qed.
Lemma plane_result norm value xs : (forall s, In s xs -> fit s) ->
  exists g, plane K root E forward backward N uvRes norm value xs = Some g /\ forall i, 0 <= i < N * N -> g i = result norm value xs i.
Proof.
  intro H. destruct (sub_grid_ok K N HN uvRes value xs (fun s Hs => fit_fits s (H s Hs))) as [g [Eg G]]. unfold plane. rewrite Eg. cbn [option_map]. eexists. split; [reflexivity|].
  intros i Hi. unfold project, result, projected. apply Hb; [|exact Hi]. intros j Hj. rewrite w_mean_ok, w_kernel_ok by (auto; lia).
  rewrite c_times_mul. f_equal. apply Hf; [|exact Hj]. intros k Hk. rewrite places_eq in G. rewrite <- G.
  - f_equal. apply Z.div_mod. lia.
  - split; [apply Z.div_pos; lia|]. apply Z.div_lt_upper_bound; lia.
  - apply Z.mod_pos_bound. lia.
Qed.
(** The sum over the planes, whatever the order they are taken in. *)
Lemma total_c_perm (l r : list C) : Permutation l r -> total_c l = total_c r.
Proof.
  induction 1 as [|x l r _ IH|x y l|l m r _ IH1 _ IH2]; cbn [total_c]; [reflexivity|rewrite IH; reflexivity| |congruence].
  change plus with cadd. rewrite <- !c_assoc, (c_comm y x). reflexivity.
Qed.
Definition one (norm : Qc) (planes : list (Z * Z)) (xs : list sample) (s : option (mem C * mem C)) (j : Z) : option (mem C * mem C) :=
  let '(start, stop) := znth (0, 0) j planes in
  let sec := ztake (stop - start) (zdrop start xs) in
  match s, plane K root E forward backward N uvRes norm s_vis sec, plane K root E forward backward N uvRes norm s_wgt sec with
  | Some (uv, bm), Some suv, Some sbm => Some (fun i => cadd (uv i) (suv i), fun i => cadd (bm i) (sbm i))
  | _, _, _ => None
  end.
Lemma one_fold norm planes xs : (forall s, In s xs -> fit s) -> forall order uv bm, exists uv' bm',
  fold_left (one norm planes xs) order (Some (uv, bm)) = Some (uv', bm') /\
  forall i, 0 <= i < N * N ->
    uv' i = cadd (uv i) (total_c (map (fun j => result norm s_vis (piece xs (znth (0, 0) j planes)) i) order)) /\
    bm' i = cadd (bm i) (total_c (map (fun j => result norm s_wgt (piece xs (znth (0, 0) j planes)) i) order)).
Proof.
  intro H. induction order as [|j order IH]; intros uv bm; cbn [fold_left].
  - exists uv, bm. split; [reflexivity|]. intros i _. cbn [map total_c]. split; symmetry; apply c_r0.
  - unfold one at 2. destruct (znth (0, 0) j planes) as [start stop] eqn:Ej. set (sec := ztake (stop - start) (zdrop start xs)).
    assert (Hs : forall s, In s sec -> fit s).
    { intros s Hs. apply H. unfold sec in Hs. rewrite <- (ztake_zdrop start xs). apply in_app_iff. right. rewrite <- (ztake_zdrop (stop - start) (zdrop start xs)). apply in_app_iff. left. exact Hs. }
    destruct (plane_result norm s_vis sec Hs) as [g [Eg G]]. destruct (plane_result norm s_wgt sec Hs) as [h [Eh Hh]]. rewrite Eg, Eh.
    destruct (IH (fun i => cadd (uv i) (g i)) (fun i => cadd (bm i) (h i))) as [uv' [bm' [E1 E2]]]. exists uv', bm'. split; [exact E1|].
    intros i Hi. destruct (E2 i Hi) as [-> ->]. cbn [map]. rewrite !total_c_cons, Ej, !c_assoc. change (piece xs (start, stop)) with sec. rewrite G, Hh by exact Hi. split; reflexivity.
Qed.
Lemma gridding_ok first before wRes order xs p : (forall s, In s xs -> fit s) -> compute_planes ss before wRes (map s_w xs) = Some p -> Permutation order (range 0 (zlen p)) ->
  exists uv bm, compute_gridding ss K root E forward backward first before N uvRes wRes order xs = Some (uv, bm) /\
  forall i, 0 <= i < N * N ->
    uv i = total_c (map (fun ab => result (static_norm first N) s_vis (piece xs ab) i) p) /\
    bm i = total_c (map (fun ab => result (static_norm first N) s_wgt (piece xs ab) i) p).
Proof.
  intros H Hp Hperm. unfold compute_gridding. rewrite Hp. change (fun s j => _) with (one (static_norm first N) p xs).
  destruct (one_fold (static_norm first N) p xs H order (fun _ => c0) (fun _ => c0)) as [uv [bm [E1 E2]]]. exists uv, bm. split; [exact E1|].
  intros i Hi. destruct (E2 i Hi) as [-> ->]. rewrite !(c_comm c0), !c_r0.
  assert (Ep : p = map (fun j => znth (0, 0) j p) (range 0 (zlen p))) by (symmetry; apply znth_self).
  split.
  - rewrite (total_c_perm _ _ (Permutation_map (fun j => result (static_norm first N) s_vis (piece xs (znth (0, 0) j p)) i) Hperm)).
    f_equal. transitivity (map (fun ab => result (static_norm first N) s_vis (piece xs ab) i) (map (fun j => znth (0, 0) j p) (range 0 (zlen p)))); [rewrite map_map; reflexivity|rewrite <- Ep; reflexivity].
  - rewrite (total_c_perm _ _ (Permutation_map (fun j => result (static_norm first N) s_wgt (piece xs (znth (0, 0) j p)) i) Hperm)).
    f_equal. transitivity (map (fun ab => result (static_norm first N) s_wgt (piece xs ab) i) (map (fun j => znth (0, 0) j p) (range 0 (zlen p)))); [rewrite map_map; reflexivity|rewrite <- Ep; reflexivity].
Qed.

(** Scaling: transforms that respect multiplication by a number. *)
Definition homogeneous (f : Z -> mem C -> mem C) : Prop := forall c g i, 0 <= i < N * N -> f N (fun j => cscale c (g j)) i = cscale c (f N g i).
Lemma result_scale (Hh : homogeneous backward) a b value xs i : 0 <= i < N * N -> result (a * b)%Qc value xs i = cscale a (result b value xs i).
Proof.
  intro Hi. unfold result, projected. rewrite <- Hh by exact Hi. apply Hb; [|exact Hi]. intros j _.
  rewrite !c_times_mul. change times_real with cscale. generalize (forward N (fun i0 : Z => plane_cell K N (places value xs) (i0 / N) (i0 mod N)) j).
  generalize (w_term root E N uvRes (mean_of (map s_w xs)) (j / N) (j mod N)). intros [x y] [u v]. unfold cmul, cscale. cbn [fst snd]. f_equal; ring.
Qed.
Lemma total_c_times {X} (f : X -> C) c l : total_c (map (fun x => cscale c (f x)) l) = cscale c (total_c (map f l)).
Proof. induction l as [|x l IH]; cbn [map total_c]; [unfold cscale; cbn; f_equal; ring|]. rewrite IH. destruct (f x), (total_c (map f l)). unfold plus, cscale. cbn [fst snd]. f_equal; ring. Qed.

(** No w: the projection leaves the plane as it is. *)
Lemma mean_zero (l : list Qc) : (forall x, In x l -> x = 0%Qc) -> mean_of l = 0%Qc.
Proof.
  intro H. unfold mean_of. assert (T : total l = 0%Qc) by (induction l as [|x l IH]; cbn [total]; [reflexivity|]; rewrite (H x) by (left; reflexivity); rewrite IH by (intros y Hy; apply H; right; exact Hy); ring).
  rewrite T. unfold Qcdiv. ring.
Qed.
Lemma cosine_small k : 0 <= k < N -> (4 * (this uvRes * this uvRes) * (this (cosine N uvRes k) * this (cosine N uvRes k)) <= 1)%Q.
Proof.
  intro Hk. pose proof (num_nz N ltac:(lia)) as Hn. set (c := cosine N uvRes k). set (n := if 2 * k <=? N then k else k - N).
  assert (Hn2 : (4 * (n * n) <= N * N)) by (unfold n; destruct (Z.leb_spec (2 * k) N); nia).
  assert (Ec : (c * (num N * uvRes) = num n)%Qc) by (unfold c, cosine, n; field; auto).
  assert (Eq : (this c * (inject_Z N * this uvRes) == inject_Z n)%Q) by (rewrite <- (this_num n), <- Ec, this_mult, this_mult, this_num; reflexivity).
  rewrite Zle_Qle in Hn2. rewrite !inject_Z_mult in Hn2. rewrite <- Eq in Hn2. change (inject_Z 4) with 4%Q in Hn2.
  assert (HNq : (0 < inject_Z N)%Q) by (change 0%Q with (inject_Z 0); rewrite <- Zlt_Qlt; lia). set (q := inject_Z N) in *. clearbody q.
  apply Qmult_lt_0_le_reg_r with (z := (q * q)%Q); [nra|]. eapply Qle_trans; [|eapply Qle_trans; [exact Hn2|]]; apply Qle_lteq; right; ring.
Qed.
Lemma w_term_flat a b : (1 < 2 * (this uvRes * this uvRes))%Q -> E 0%Qc = (1%Qc, 0%Qc) -> 0 <= a < N -> 0 <= b < N -> w_term root E N uvRes 0%Qc a b = (1%Qc, 0%Qc).
Proof.
  intros Hu HE Ha Hb'. unfold w_term. pose proof (cosine_small a Ha) as A. pose proof (cosine_small b Hb') as B. set (x := cosine N uvRes a) in *. set (y := cosine N uvRes b) in *.
  assert (L : (this (x * x + y * y)%Qc < 1)%Q).
  { rewrite this_plus, !this_mult. set (u := (this uvRes * this uvRes)%Q) in *. set (p := (this x * this x)%Q) in *. set (q := (this y * this y)%Q) in *.
    assert (0 <= p)%Q by (unfold p; nra). assert (0 <= q)%Q by (unfold q; nra). clearbody u p q. nra. }
  destruct (Qle_bool 1 (this (x * x + y * y)%Qc)) eqn:T; [apply Qle_bool_iff in T; exfalso; lra|]. cbn zeta.
  replace (0 * (1 - root (1 - (x * x + y * y))))%Qc with 0%Qc by ring. exact HE.
Qed.
Lemma result_flat (Hh : homogeneous backward) value xs i : 
  (forall g i, 0 <= i < N * N -> backward N (forward N g) i = cscale (num N * num N)%Qc (g i)) -> (1 < 2 * (this uvRes * this uvRes))%Q -> E 0%Qc = (1%Qc, 0%Qc) ->
  (forall s, In s xs -> s_w s = 0%Qc) -> 0 <= i < N * N -> result (1 / (qz N * qz N))%Qc value xs i = plane_cell K N (places value xs) (i / N) (i mod N).
Proof.
  intros Hinv Hu HE Hw Hi. unfold result, projected. set (g := fun i0 : Z => plane_cell K N (places value xs) (i0 / N) (i0 mod N)).
  transitivity (backward N (fun j => cscale (1 / (qz N * qz N))%Qc (forward N g j)) i).
  - apply Hb; [|exact Hi]. intros j Hj. rewrite mean_zero by (intros x Hx; apply in_map_iff in Hx; destruct Hx as [s [<- Hs]]; apply Hw, Hs).
    rewrite w_term_flat by (auto; try (split; [apply Z.div_pos; lia|apply Z.div_lt_upper_bound; lia]); apply Z.mod_pos_bound; lia).
    destruct (forward N g j). unfold c_times, times_real, cscale. cbn [fst snd]. f_equal; ring.
  - rewrite Hh, Hinv by exact Hi. rewrite qz_num. pose proof (num_nz N ltac:(lia)) as Hn. change (plane_cell K N (places value xs) (i / N) (i mod N)) with (g i). destruct (g i). unfold cscale. cbn [fst snd]. f_equal; field; exact Hn.
Qed.
End Sum.
