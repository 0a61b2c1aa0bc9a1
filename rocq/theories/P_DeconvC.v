(** Points between cells: the shares of their neighbours, interpolation, and the loop of clean. *)
From Coq Require Import List ZArith QArith Qround Qcanon Bool Lia Lqa.
From Verif Require Import LibList M_Py M_Num M_Base P_Base S_Corr P_Corr P_GridC P_Math M_Deconv S_Deconv P_Deconv.
Import ListNotations.
Open Scope Z_scope.

(** inequalities between rationals, by way of Q *)
Lemma qc_le (x y : Qc) : (x <= y)%Qc <-> (this x <= this y)%Q. Proof. reflexivity. Qed.
Lemma qc_lt (x y : Qc) : (x < y)%Qc <-> (this x < this y)%Q. Proof. reflexivity. Qed.
Lemma py_int_pos (x : Qc) : (0 <= x)%Qc -> (num (py_int (this x)) <= x)%Qc /\ (x < num (py_int (this x) + 1))%Qc /\ 0 <= py_int (this x).
Proof.
  intro P. unfold py_int. rewrite (proj2 (Qle_bool_iff 0 (this x)) P). rewrite qc_le, qc_lt, !this_num. split; [apply Qfloor_le|]. split; [apply Qlt_floor|].
  change 0 with (Qfloor 0). apply Qfloor_resp_le, P.
Qed.
Lemma tent_left t : (t <= 0)%Qc -> (0 <= 1 + t)%Qc -> tent t = (1 + t)%Qc.
Proof.
  intros A B. unfold tent. destruct (Qclt_le_dec t 0) as [L|L].
  - destruct (Qclt_le_dec (1 + t) 0) as [L2|L2]; [exfalso; apply (Qclt_not_le _ _ L2 B)|reflexivity].
  - assert (E : t = 0%Qc) by (apply Qcle_antisym; assumption). subst t. destruct (Qclt_le_dec (1 - 0) 0) as [L2|L2]; [exfalso; revert L2; apply Qcle_not_lt; intro K; discriminate K|ring].
Qed.
Lemma tent_right t : (0 <= t)%Qc -> (0 <= 1 - t)%Qc -> tent t = (1 - t)%Qc.
Proof.
  intros A B. unfold tent. destruct (Qclt_le_dec t 0) as [L|L]; [exfalso; apply (Qclt_not_le _ _ L A)|].
  destruct (Qclt_le_dec (1 - t) 0) as [L2|L2]; [exfalso; apply (Qclt_not_le _ _ L2 B)|reflexivity].
Qed.
Lemma qc1 : (this 1%Qc == 1)%Q. Proof. reflexivity. Qed.
Lemma qc0 : (this 0%Qc == 0)%Q. Proof. reflexivity. Qed.
Ltac qcx := repeat rewrite ?qc_le, ?qc_lt, ?this_plus, ?this_minus, ?this_num, ?qc1, ?qc0 in *.
Lemma tent_far t : (t <= - (1))%Qc \/ (1 <= t)%Qc -> tent t = 0%Qc.
Proof.
  intros D. unfold tent. destruct (Qclt_le_dec t 0) as [L|L].
  - destruct (Qclt_le_dec (1 + t) 0) as [L2|L2]; [reflexivity|]. destruct D as [D|D].
    + apply Qcle_antisym; [|exact L2]. apply (Qcplus_le_compat 1 1) in D; [|apply Qcle_refl]. replace (1 + - (1))%Qc with 0%Qc in D by ring. exact D.
    + exfalso. apply (Qclt_not_le _ _ L). apply (Qcle_trans _ 1%Qc); [intro K; discriminate K|exact D].
  - destruct (Qclt_le_dec (1 - t) 0) as [L2|L2]; [reflexivity|]. destruct D as [D|D].
    + exfalso. assert (K : (0 <= - (1))%Qc) by (apply (Qcle_trans _ t); assumption). apply K. reflexivity.
    + apply Qcle_antisym; [|exact L2]. apply Qcopp_le_compat in D. apply (Qcplus_le_compat 1 1) in D; [|apply Qcle_refl]. replace (1 + - (1))%Qc with 0%Qc in D by ring. exact D.
Qed.
Lemma num_le a b : a <= b -> (num a <= num b)%Qc.
Proof. intro L. qcx. rewrite <- Zle_Qle. exact L. Qed.
Lemma num_plus a b : num (a + b) = (num a + num b)%Qc. Proof. apply Qc_is_canon. rewrite this_plus, !this_num, inject_Z_plus. reflexivity. Qed.
Lemma num_minus a b : num (a - b) = (num a - num b)%Qc. Proof. apply Qc_is_canon. rewrite this_minus, !this_num. unfold Zminus. rewrite inject_Z_plus, inject_Z_opp. reflexivity. Qed.
Lemma num_one : num 1 = 1%Qc. Proof. reflexivity. Qed.
Lemma le_shift (a b c : Qc) : (a <= b)%Qc -> (a + c <= b + c)%Qc. Proof. intro L. apply Qcplus_le_compat; [exact L|apply Qcle_refl]. Qed.

Section Share.
Context (x : Qc) (Hx : (0 <= x)%Qc).
Let f := py_int (this x).
Lemma floor_low : (num f <= x)%Qc. Proof. apply py_int_pos, Hx. Qed.
Lemma floor_high : (x < num f + 1)%Qc. Proof. destruct (py_int_pos x Hx) as [_ [L _]]. fold f in L. rewrite num_plus, num_one in L. exact L. Qed.
Lemma floor_pos : 0 <= f. Proof. apply py_int_pos, Hx. Qed.
Lemma half_two : (half + half)%Qc = 1%Qc. Proof. apply Qc_is_canon. reflexivity. Qed.
Lemma side_low : side x f = (1 + (num f - x))%Qc /\ tent (num f - x)%Qc = (1 + (num f - x))%Qc.
Proof.
  split.
  - unfold side. change (qz f) with (num f). rewrite (proj2 (qlt_false x (num f)) floor_low). rewrite <- half_two. ring.
  - apply tent_left.
    + pose proof (le_shift _ _ (- x)%Qc floor_low) as L. replace (x + - x)%Qc with 0%Qc in L by ring. exact L.
    + pose proof (le_shift _ _ (- x)%Qc (Qclt_le_weak _ _ floor_high)) as L. replace (x + - x)%Qc with 0%Qc in L by ring. replace (1 + (num f - x))%Qc with (num f + 1 + - x)%Qc by ring. exact L.
Qed.
Lemma side_high : side x (f + 1) = (x - num f)%Qc /\ tent (num (f + 1) - x)%Qc = (x - num f)%Qc.
Proof.
  split.
  - unfold side. change (qz (f + 1)) with (num (f + 1)). rewrite (num_plus f 1), num_one, (proj2 (qlt_iff x (num f + 1)%Qc) floor_high).
    replace (x + half - (num f + 1 - half))%Qc with (x - num f + ((half + half) - 1))%Qc by ring. rewrite half_two. ring.
  - rewrite num_plus, num_one. replace (x - num f)%Qc with (1 - (num f + 1 - x))%Qc by ring. apply tent_right.
    + pose proof (le_shift _ _ (- x)%Qc (Qclt_le_weak _ _ floor_high)) as L. replace (x + - x)%Qc with 0%Qc in L by ring. exact L.
    + pose proof (le_shift _ _ (- num f)%Qc floor_low) as L. replace (num f + - num f)%Qc with 0%Qc in L by ring. replace (1 - (num f + 1 - x))%Qc with (x + - num f)%Qc by ring. exact L.
Qed.
Lemma tent_other k : k <> f -> k <> f + 1 -> tent (num k - x)%Qc = 0%Qc.
Proof.
  intros A B. apply tent_far. destruct (Z.lt_ge_cases k f) as [L|L].
  - left. assert (L1 : (num k <= num f - 1)%Qc) by (rewrite <- num_one, <- num_minus; apply num_le; lia). apply (Qcle_trans _ (num f - 1 - x)%Qc); [apply (le_shift _ _ (- x)%Qc L1)|].
    pose proof (le_shift _ _ (- (1) - x)%Qc floor_low) as L2. replace (num f + (- (1) - x))%Qc with (num f - 1 - x)%Qc in L2 by ring. replace (x + (- (1) - x))%Qc with (- (1))%Qc in L2 by ring. exact L2.
  - right. assert (L1 : (num f + 1 + 1 <= num k)%Qc) by (rewrite <- num_one, <- !num_plus; apply num_le; lia). apply (Qcle_trans _ (num f + 1 + 1 - x)%Qc); [|apply (le_shift _ _ (- x)%Qc L1)].
    pose proof (le_shift _ _ (1 - x)%Qc (Qclt_le_weak _ _ floor_high)) as L2. replace (num f + 1 + (1 - x))%Qc with (num f + 1 + 1 - x)%Qc in L2 by ring. replace (x + (1 - x))%Qc with 1%Qc in L2 by ring. exact L2.
Qed.
End Share.
(** sums with two terms *)
Lemma total_zero {X} (g : X -> Qc) l : (forall k, In k l -> g k = 0%Qc) -> total (map g l) = 0%Qc.
Proof. intro Z0. induction l as [|k l IH]; cbn [map total]; [reflexivity|]. rewrite (Z0 k (or_introl eq_refl)), IH by (intros; apply Z0; right; assumption). ring. Qed.
Lemma total_two (g : Z -> Qc) n f : 0 <= f -> f + 1 < n -> (forall k, k <> f -> k <> f + 1 -> g k = 0%Qc) -> total (map g (upto 0 n)) = (g f + g (f + 1)%Z)%Qc.
Proof.
  intros A B Z0. rewrite upto_range, (range_app 0 f n), (range_cons f n), (range_cons (f + 1) n) by lia. rewrite map_app, total_app. cbn [map total].
  rewrite (total_zero g (range 0 f)), (total_zero g (range (f + 1 + 1) n)); [ring| |]; intros k Hk; apply range_in in Hk; apply Z0; lia.
Qed.
Lemma tent_sum x n : (0 <= x)%Qc -> (x < num (n - 1))%Qc -> total (map (fun k => tent (num k - x)%Qc) (upto 0 n)) = 1%Qc /\ total (map (fun k => num k * tent (num k - x))%Qc (upto 0 n)) = x /\ py_int (this x) + 1 < n.
Proof.
  intros P L. pose proof (floor_pos x P) as FP. assert (FN : py_int (this x) + 1 < n).
  { assert (Q : (num (py_int (this x)) < num (n - 1))%Qc) by (eapply Qcle_lt_trans; [apply floor_low, P|exact L]). qcx. rewrite <- Zlt_Qlt in Q. lia. }
  split; [|split; [|exact FN]].
  - rewrite (total_two _ n (py_int (this x)) FP FN) by (intros; apply tent_other; assumption). rewrite (proj2 (side_low x P)), (proj2 (side_high x P)). ring.
  - rewrite (total_two _ n (py_int (this x)) FP FN) by (intros; rewrite tent_other by assumption; ring). rewrite (proj2 (side_low x P)), (proj2 (side_high x P)), num_plus, num_one. ring.
Qed.
Lemma index_in n i : 0 <= i < n -> index n i = Some i.
Proof. intro B. unfold index. rewrite (proj2 (Z.leb_le (- n) i)), (proj2 (Z.ltb_lt i n)) by lia. cbn [andb]. rewrite (proj2 (Z.ltb_ge i 0)) by lia. reflexivity. Qed.
Lemma range_pair a : range a (a + 2) = [a; a + 1].
Proof. rewrite (range_cons a), (range_cons (a + 1)), range_nil by lia. reflexivity. Qed.

Section Between.
Context (H W : Z).
Lemma spread_ok amount x y a : between_cells H W x y ->
  exists b, spread H W amount x y a = Ok b /\ forall d, b d = (a d + amount * overlap x y d)%Qc.
Proof.
  intros [Px [Lx [Py Ly]]]. destruct (tent_sum x H Px Lx) as [_ [_ Nx]], (tent_sum y W Py Ly) as [_ [_ Ny]]. pose proof (floor_pos x Px) as Fx. pose proof (floor_pos y Py) as Fy.
  pose proof (side_low x Px) as [SLx TLx]. pose proof (side_high x Px) as [SHx THx]. pose proof (side_low y Py) as [SLy TLy]. pose proof (side_high y Py) as [SHy THy].
  pose proof (tent_other x Px) as TOx. pose proof (tent_other y Py) as TOy.
  unfold spread. set (f := py_int (this x)) in *. set (g := py_int (this y)) in *. rewrite !range_pair. cbn [flat_map map app fold_left bind fst snd]. unfold add_index.
  rewrite !index_in by lia. cbn [bind]. eexists. split; [reflexivity|]. intros [i j]. unfold add_at, same_cell, overlap. cbn [fst snd]. rewrite SLx, SHx, SLy, SHy.
  destruct (Z.eqb_spec f i) as [<-|N1]; [|destruct (Z.eqb_spec (f + 1) i) as [<-|N2]]; (destruct (Z.eqb_spec g j) as [<-|M1]; [|destruct (Z.eqb_spec (g + 1) j) as [<-|M2]]);
    repeat rewrite ?Z.eqb_refl, ?(proj2 (Z.eqb_neq f (f + 1))), ?(proj2 (Z.eqb_neq (f + 1) f)), ?(proj2 (Z.eqb_neq g (g + 1))), ?(proj2 (Z.eqb_neq (g + 1) g)) by lia; cbn [andb];
    rewrite ?TLx, ?THx, ?TLy, ?THy; try (rewrite (TOx i) by congruence); try (rewrite (TOy j) by congruence); ring.
Qed.
Lemma interpolate_ok a x y : between_cells H W x y -> interpolate H W a x y = Some (bilinear H W a x y).
Proof.
  intros [Px [Lx [Py Ly]]]. destruct (tent_sum x H Px Lx) as [_ [_ Nx]], (tent_sum y W Py Ly) as [_ [_ Ny]]. pose proof (floor_pos x Px) as Fx. pose proof (floor_pos y Py) as Fy.
  pose proof (side_low x Px) as [SLx TLx]. pose proof (side_high x Px) as [SHx THx]. pose proof (side_low y Py) as [SLy TLy]. pose proof (side_high y Py) as [SHy THy].
  pose proof (tent_other x Px) as TOx. pose proof (tent_other y Py) as TOy.
  unfold interpolate. set (f := py_int (this x)) in *. set (g := py_int (this y)) in *. rewrite (proj2 (qlt_false x 0) Px), (proj2 (qlt_false y 0) Py). unfold look. rewrite !index_in by lia.
  replace ((f + 1 - f) * (g + 1 - g)) with 1 by lia. f_equal. unfold bilinear, sum_over.
  rewrite (total_two _ H f Fx Nx).
  2:{ intros k A B. apply total_zero. intros m _. unfold overlap. cbn [fst snd]. rewrite (TOx k A B). ring. }
  rewrite !(total_two _ W g Fy Ny). 2,3: intros k A B; unfold overlap; cbn [fst snd]; rewrite (TOy k A B); ring.
  unfold overlap. cbn [fst snd]. rewrite TLx, THx, TLy, THy. change qz with num. rewrite !num_plus, num_one.
  unfold Qcdiv. replace (/ 1)%Qc with 1%Qc by (apply Qc_is_canon; reflexivity). ring.
Qed.
Lemma overlap_sum x y : between_cells H W x y -> sum_over H W (overlap x y) = 1%Qc /\ sum_over H W (fun d => num (fst d) * overlap x y d)%Qc = x /\ sum_over H W (fun d => num (snd d) * overlap x y d)%Qc = y.
Proof.
  intros [Px [Lx [Py Ly]]]. destruct (tent_sum x H Px Lx) as [Sx [Cx _]], (tent_sum y W Py Ly) as [Sy [Cy _]]. unfold sum_over, overlap. cbn [fst snd].
  assert (TS : forall (u v : Z -> Qc), total (map (fun i => total (map (fun j => u i * v j)%Qc (upto 0 W))) (upto 0 H)) = (total (map u (upto 0 H)) * total (map v (upto 0 W)))%Qc).
  { clear. intros u v. induction (upto 0 H) as [|i l IH]; cbn [map total]; [ring|]. rewrite IH, (total_scale v (u i)). ring. }
  split; [|split].
  - rewrite (TS (fun i => tent (num i - x)%Qc) (fun j => tent (num j - y)%Qc)), Sx, Sy. ring.
  - transitivity (total (map (fun i => total (map (fun j => (num i * tent (num i - x)) * tent (num j - y))%Qc (upto 0 W))) (upto 0 H))).
    + apply total_ext. intros i _. apply total_ext. intros j _. ring.
    + rewrite (TS (fun i => num i * tent (num i - x))%Qc (fun j => tent (num j - y)%Qc)), Cx, Sy. ring.
  - transitivity (total (map (fun i => total (map (fun j => tent (num i - x) * (num j * tent (num j - y)))%Qc (upto 0 W))) (upto 0 H))).
    + apply total_ext. intros i _. apply total_ext. intros j _. ring.
    + rewrite (TS (fun i => tent (num i - x)%Qc) (fun j => num j * tent (num j - y))%Qc), Cy, Sx. ring.
Qed.
(** spreading fails beyond the last row or column *)
Lemma spread_between amount x y a b : (0 <= x)%Qc -> (0 <= y)%Qc -> spread H W amount x y a = Ok b -> between_cells H W x y.
Proof.
  intros Px Py E. pose proof (floor_pos x Px) as Fx. pose proof (floor_pos y Py) as Fy.
  assert (K : py_int (this x) + 1 < H /\ py_int (this y) + 1 < W).
  { unfold spread in E. rewrite !range_pair in E. cbn [flat_map map app fold_left] in E.
    assert (ST : forall l m v r b, bind r (fun a => add_index H W l m v a) = Ok b -> 0 <= l -> 0 <= m -> l < H /\ m < W).
    { clear. intros l m v r b E A B. destruct r as [a|]; [|discriminate]. cbn [bind] in E. unfold add_index, index in E. destruct (Z.leb_spec (- H) l), (Z.ltb_spec l H); cbn [andb] in E; try discriminate.
      destruct (Z.leb_spec (- W) m), (Z.ltb_spec m W); cbn [andb] in E; try discriminate. auto. }
    cbn [fst snd] in E. apply ST in E; lia. }
  destruct K as [Kx Ky]. destruct (py_int_pos x Px) as [_ [Lx _]]. destruct (py_int_pos y Py) as [_ [Ly _]].
  split; [exact Px|]. split; [eapply Qclt_le_trans; [exact Lx|apply num_le; lia]|]. split; [exact Py|]. eapply Qclt_le_trans; [exact Ly|apply num_le; lia].
Qed.
End Between.
