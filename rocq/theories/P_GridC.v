(** The cells filled by the gridder. *)
From Coq Require Import List ZArith QArith Qround Qabs Qcanon Bool Lia Lqa.
From Verif Require Import LibList M_Num M_Base P_Base M_Corr S_Corr P_Corr M_Robust P_Robust P_CorrFX M_Math P_Math M_Grid S_Grid P_Grid.
Import ListNotations.
Open Scope Z_scope.

(** ** Additive steps *)
Definition adds (f : option (mem C) -> option (mem C)) (D : Z -> C) : Prop := forall m, exists m', f (Some m) = Some m' /\ forall q, m' q = cadd (m q) (D q).
Lemma c_assoc x y z : cadd (cadd x y) z = cadd x (cadd y z).
Proof. destruct x, y, z. unfold cadd. cbn [fst snd]. f_equal; ring. Qed.
Lemma c_r0 x : cadd x c0 = x. Proof. destruct x. unfold cadd, c0. cbn [fst snd]. f_equal; ring. Qed.
Lemma c_comm x y : cadd x y = cadd y x. Proof. destruct x, y. unfold cadd. cbn [fst snd]. f_equal; ring. Qed.
Lemma total_c_cons x l : total_c (x :: l) = cadd x (total_c l). Proof. reflexivity. Qed.
Lemma adds_fold {X} (f : X -> option (mem C) -> option (mem C)) (D : X -> Z -> C) : forall l, (forall k, In k l -> adds (f k) (D k)) ->
  adds (fold_left (fun s k => f k s) l) (fun q => total_c (map (fun k => D k q) l)).
Proof.
  induction l as [|k l IH]; intros H m; cbn [fold_left].
  - exists m. split; [reflexivity|]. intro q. cbn [map total_c]. symmetry. apply c_r0.
  - destruct (H k (or_introl eq_refl) m) as [m1 [E1 H1]]. rewrite E1. destruct (IH (fun k Hk => H k (or_intror Hk)) m1) as [m2 [E2 H2]]. exists m2. split; [exact E2|].
    intro q. rewrite H2, H1. cbn [map]. rewrite total_c_cons. apply c_assoc.
Qed.
Lemma adds_ext f D D' : adds f D -> (forall q, D q = D' q) -> adds f D'.
Proof. intros H E m. destruct (H m) as [m' [E1 H1]]. exists m'. split; [exact E1|]. intro q. rewrite H1, E. reflexivity. Qed.

(** ** Positions *)
Lemma this_num n : (this (num n) == inject_Z n)%Q. Proof. unfold num, Q2Qc. cbn [this]. apply Qred_correct. Qed.
Lemma qz_num n : qz n = num n. Proof. reflexivity. Qed.
Lemma this_plus (x y : Qc) : (this (x + y)%Qc == this x + this y)%Q. Proof. unfold Qcplus, Q2Qc. cbn [this]. apply Qred_correct. Qed.
Lemma this_mult (x y : Qc) : (this (x * y)%Qc == this x * this y)%Q. Proof. unfold Qcmult, Q2Qc. cbn [this]. apply Qred_correct. Qed.
Lemma this_minus (x y : Qc) : (this (x - y)%Qc == this x - this y)%Q.
Proof. unfold Qcminus, Qcplus, Qcopp, Q2Qc. cbn [this]. rewrite !Qred_correct. reflexivity. Qed.
Lemma floor_shift (q : Q) (n : Z) : Qfloor (q + inject_Z n) = Qfloor q + n.
Proof.
  pose proof (Qfloor_le q). pose proof (Qlt_floor q). pose proof (Qfloor_le (q + inject_Z n)). pose proof (Qlt_floor (q + inject_Z n)).
  set (a := Qfloor q) in *. set (b := Qfloor (q + inject_Z n)) in *. rewrite inject_Z_plus in *. change (inject_Z 1) with 1%Q in *.
  assert (inject_Z b < inject_Z (a + n + 1))%Q by (rewrite !inject_Z_plus; change (inject_Z 1) with 1%Q; lra).
  assert (inject_Z (a + n) < inject_Z (b + 1))%Q by (rewrite !inject_Z_plus; change (inject_Z 1) with 1%Q; lra).
  rewrite <- Zlt_Qlt in *. lia.
Qed.
Lemma nearest_shift (x : Qc) n : nearest (x + num n)%Qc = nearest x + n.
Proof.
  unfold nearest. rewrite <- floor_shift. apply Qfloor_comp. rewrite this_plus, this_num. ring.
Qed.
Lemma nearest_bounds (x : Qc) : (inject_Z (nearest x) - (1 # 2) <= this x)%Q /\ (this x < inject_Z (nearest x) + (1 # 2))%Q.
Proof.
  unfold nearest. pose proof (Qfloor_le (this x + (1 # 2))). pose proof (Qlt_floor (this x + (1 # 2))). rewrite inject_Z_plus in *. change (inject_Z 1) with 1%Q in *. lra.
Qed.
Lemma abs_py_int (y : Q) : (if py_int y <? 0 then - py_int y else py_int y) = Qfloor (Qabs y).
Proof.
  unfold py_int. destruct (Qle_bool 0 y) eqn:T.
  - apply Qle_bool_iff in T. rewrite (Qfloor_comp _ _ (Qabs_pos _ T)). assert (0 <= Qfloor y) by (change 0 with (Qfloor 0); apply Qfloor_resp_le, T).
    destruct (Qfloor y <? 0) eqn:G; [apply Z.ltb_lt in G; lia|reflexivity].
  - assert (N : (y < 0)%Q) by (apply Qnot_le_lt; intro L; apply Qle_bool_iff in L; congruence).
    rewrite (Qfloor_comp _ _ (Qabs_neg _ (Qlt_le_weak _ _ N))). assert (0 <= Qfloor (- y)) by (change 0 with (Qfloor 0); apply Qfloor_resp_le; lra).
    destruct (- Qfloor (- y) <? 0) eqn:G; [apply Z.ltb_lt in G; lia|apply Z.ltb_ge in G; lia].
Qed.

Section Position.
Context (N : Z) (x : Qc).
Hypothesis HN : 4 <= N.
Hypothesis Hx : (- num N <= x)%Qc /\ (x <= num N)%Qc.
Definition turn_of : Z := if qlt x 0%Qc then N else 0.
Lemma coord_shift : coord N x = (x + num turn_of)%Qc.
Proof. unfold coord, turn_of. destruct (qlt x 0%Qc); rewrite ?qz_num; [reflexivity|]. change (num 0) with 0%Qc. ring. Qed.
Lemma coord_range : (0 <= coord N x)%Qc /\ (coord N x <= num N)%Qc.
Proof.
  destruct Hx as [H1 H2]. unfold coord, qlt. destruct (Qle_bool 0%Qc x) eqn:T; cbn [negb].
  - apply qle_bool_iff in T. split; [exact T|exact H2].
  - apply qle_bool_false in T. rewrite qz_num. revert H1 H2 T. generalize (num N). intros n. clear. intros. split; qcl.
Qed.
Lemma cround_coord : cround (coord N x) = nearest x + turn_of /\ 0 <= cround (coord N x) <= N.
Proof.
  destruct coord_range as [H0 H1]. unfold cround. destruct (lround_nearest (coord N x) H0) as [-> L]. split.
  - rewrite coord_shift, nearest_shift. reflexivity.
  - split; [exact L|]. pose proof (nearest_bounds (coord N x)) as [B _]. unfold Qcle in H1. rewrite this_num in H1.
    assert (G : (inject_Z (nearest (coord N x)) < inject_Z (N + 1))%Q) by (rewrite inject_Z_plus; change (inject_Z 1) with 1%Q; lra). rewrite <- Zlt_Qlt in G. lia.
Qed.
Lemma turn_mod p : (p + turn_of) mod N = p mod N.
Proof. unfold turn_of. destruct (qlt x 0%Qc); [|f_equal; lia]. replace (p + N) with (p + 1 * N) by lia. apply Z_mod_plus_full. Qed.
Lemma cell_mod m : -3 <= m <= 3 -> cell N (coord N x) m = (nearest x + m) mod N /\ 0 <= cell N (coord N x) m < N.
Proof.
  intro Hm. destruct cround_coord as [E R]. unfold cell. rewrite <- (turn_mod (nearest x + m)). replace (nearest x + m + turn_of) with (cround (coord N x) + m) by lia.
  generalize dependent (cround (coord N x)). intros p _ R. destruct (p + m <? 0) eqn:A.
  - apply Z.ltb_lt in A. split; [|lia]. apply (Z.mod_unique_pos _ _ (-1)); lia.
  - apply Z.ltb_ge in A. destruct (N <=? p + m) eqn:B.
    + apply Z.leb_le in B. split; [|lia]. apply (Z.mod_unique_pos _ _ 1); lia.
    + apply Z.leb_gt in B. split; [|lia]. symmetry. apply Z.mod_small. lia.
Qed.
Lemma kernel_ok K m : -3 <= m <= 3 -> kernel_at K (coord N x) m = Some (weight_at K x (nearest x + m)).
Proof.
  intro Hm. unfold kernel_at, clong. rewrite abs_py_int. destruct cround_coord as [E _].
  assert (Eq : (Qabs (this ((coord N x - qz (cround (coord N x) + m)) * qz GRID_KERNEL_OVERSAMPLE)%Qc) == 64 * Qabs (this x - inject_Z (nearest x + m)))%Q).
  { rewrite this_mult. rewrite !qz_num, this_num. rewrite Qabs_Qmult. change (Qabs (inject_Z GRID_KERNEL_OVERSAMPLE)) with 64%Q. rewrite Qmult_comm. apply Qmult_comp; [reflexivity|].
    apply Qabs_wd. rewrite this_minus, this_num, coord_shift, this_plus, this_num. rewrite <- coord_shift, E. rewrite !inject_Z_plus. ring. }
  rewrite (Qfloor_comp _ _ Eq). unfold weight_at. set (g := Qfloor (64 * Qabs (this x - inject_Z (nearest x + m)))).
  assert (G : g < 225).
  { assert (L : (64 * Qabs (this x - inject_Z (nearest x + m)) <= 224)%Q).
    { pose proof (nearest_bounds x) as [B1 B2]. assert (L1 : (inject_Z (-3) <= inject_Z m)%Q) by (rewrite <- Zle_Qle; lia). assert (L2 : (inject_Z m <= inject_Z 3)%Q) by (rewrite <- Zle_Qle; lia).
      change (inject_Z (-3)) with (-3)%Q in L1. change (inject_Z 3) with 3%Q in L2.
      assert (A : (Qabs (this x - inject_Z (nearest x + m)) <= 7 # 2)%Q) by (apply Qabs_Qle_condition; rewrite inject_Z_plus; lra). lra. }
    assert (inject_Z g < inject_Z 225)%Q by (apply Qle_lt_trans with (y := (64 * Qabs (this x - inject_Z (nearest x + m)))%Q); [apply Qfloor_le|eapply Qle_lt_trans; [exact L|reflexivity]]).
    rewrite <- Zlt_Qlt in H. exact H. }
  change (GRID_KERNEL_SIZE * GRID_KERNEL_OVERSAMPLE / 2 + 1) with 225. apply Z.ltb_lt in G. rewrite G. reflexivity.
Qed.
End Position.

(** ** One visibility *)
Lemma total_scale (f : Z -> Qc) c l : total (map (fun k => c * f k)%Qc l) = (c * total (map f l))%Qc.
Proof. induction l as [|k l IH]; cbn [map total]; [ring|]. rewrite IH. ring. Qed.
Lemma total_c_scale {X} (f : X -> Qc) (v : C) l : total_c (map (fun k => cscale (f k) v) l) = cscale (total (map f l)) v.
Proof.
  induction l as [|k l IH]; cbn [map total total_c].
  - unfold cscale. f_equal; ring.
  - rewrite IH. destruct v. unfold plus, cscale. cbn [fst snd]. f_equal; ring.
Qed.
Lemma total_ext {X} (f g : X -> Qc) l : (forall k, In k l -> f k = g k) -> total (map f l) = total (map g l).
Proof. intro H. f_equal. apply map_ext_in. exact H. Qed.
Lemma cell_pair N i j a b : 0 <= j < N -> 0 <= b < N -> (N * a + b =? N * i + j) = (i =? a) && (j =? b).
Proof.
  intros Hj Hb. destruct (Z.eqb_spec i a) as [->|Hi], (Z.eqb_spec j b) as [->|Hjb]; cbn [andb].
  - apply Z.eqb_refl.
  - apply Z.eqb_neq. lia.
  - apply Z.eqb_neq. nia.
  - apply Z.eqb_neq. nia.
Qed.

Section Sample.
Context (K : Z -> Qc) (N : Z).
Hypothesis HN : 4 <= N.
Definition in_plane (x : Qc) : Prop := (- num N <= x)%Qc /\ (x <= num N)%Qc.
Definition step_share (x : Qc) (m : Z) (a : Z) : Qc := if (nearest x + m) mod N =? a then weight_at K x (nearest x + m) else 0%Qc.
Lemma window_share x a : total (map (fun m => step_share x m a) (range (-3) 4)) = share K N x a.
Proof.
  unfold share, around. rewrite upto_range. replace (nearest x - 3) with (-3 + nearest x) by lia. replace (nearest x + 4) with (4 + nearest x) by lia.
  rewrite range_shift, map_map. apply total_ext. intros k _. unfold step_share. rewrite (Z.add_comm k). reflexivity.
Qed.
Definition flat_share (y x : Qc) (v : C) (q : Z) : C :=
  total_c (map (fun m => total_c (map (fun l => if q =? N * ((nearest y + m) mod N) + (nearest x + l) mod N then cscale (weight_at K y (nearest y + m) * weight_at K x (nearest x + l))%Qc v else c0) (range (-3) 4))) (range (-3) 4)).
Lemma cell_adds x y v m l : in_plane x -> in_plane y -> -3 <= m <= 3 -> -3 <= l <= 3 ->
  adds (grid_cell K N (coord N y) (coord N x) v m l)
       (fun q => if q =? N * ((nearest y + m) mod N) + (nearest x + l) mod N then cscale (weight_at K y (nearest y + m) * weight_at K x (nearest x + l))%Qc v else c0).
Proof.
  intros Hx Hy Hm Hl g. unfold grid_cell. rewrite (kernel_ok N y Hy K m Hm), (kernel_ok N x Hx K l Hl).
  destruct (cell_mod N y HN Hy m Hm) as [Ey Ry]. destruct (cell_mod N x HN Hx l Hl) as [Ex Rx]. rewrite <- Ey, <- Ex.
  set (a := N * cell N (coord N y) m + cell N (coord N x) l). assert (R : 0 <= a < N * N) by (unfold a; nia).
  assert (T : (0 <=? a) && (a <? N * N) = true) by (apply andb_true_intro; split; [apply Z.leb_le|apply Z.ltb_lt]; lia). rewrite T. eexists. split; [reflexivity|].
  intro q. unfold put. destruct (Z.eqb_spec q a) as [->|_]; [reflexivity|]. symmetry. apply c_r0.
Qed.
Lemma sample_adds uvRes value s : in_plane (s_u s / uvRes)%Qc -> in_plane (s_v s / - uvRes)%Qc ->
  adds (grid_sample K N uvRes value s) (flat_share (s_v s / - uvRes)%Qc (s_u s / uvRes)%Qc (value s)).
Proof.
  intros Hx Hy. unfold grid_sample. change (fst half_window) with (-3). change (snd half_window) with 4. unfold loop, flat_share.
  apply (adds_fold (fun m s0 => fold_left (fun s1 k => grid_cell K N (coord N (s_v s / - uvRes)%Qc) (coord N (s_u s / uvRes)%Qc) (value s) m k s1) (range (-3) 4) s0)
           (fun m q => total_c (map (fun l => if q =? N * ((nearest (s_v s / - uvRes)%Qc + m) mod N) + (nearest (s_u s / uvRes)%Qc + l) mod N
              then cscale (weight_at K (s_v s / - uvRes)%Qc (nearest (s_v s / - uvRes)%Qc + m) * weight_at K (s_u s / uvRes)%Qc (nearest (s_u s / uvRes)%Qc + l))%Qc (value s) else c0) (range (-3) 4)))).
  intros m Hm. apply range_in in Hm.
  apply (adds_fold (fun k s1 => grid_cell K N (coord N (s_v s / - uvRes)%Qc) (coord N (s_u s / uvRes)%Qc) (value s) m k s1)
           (fun l q => if q =? N * ((nearest (s_v s / - uvRes)%Qc + m) mod N) + (nearest (s_u s / uvRes)%Qc + l) mod N
              then cscale (weight_at K (s_v s / - uvRes)%Qc (nearest (s_v s / - uvRes)%Qc + m) * weight_at K (s_u s / uvRes)%Qc (nearest (s_u s / uvRes)%Qc + l))%Qc (value s) else c0)).
  intros l Hl. apply range_in in Hl. apply cell_adds; auto; lia.
Qed.
Lemma flat_share_cell y x v a b : 0 <= a < N -> 0 <= b < N -> flat_share y x v (N * a + b) = times_real (share K N y a * share K N x b)%Qc v.
Proof.
  intros Ha Hb. unfold flat_share. change times_real with cscale.
  assert (E : forall m, total_c (map (fun l => if N * a + b =? N * ((nearest y + m) mod N) + (nearest x + l) mod N then cscale (weight_at K y (nearest y + m) * weight_at K x (nearest x + l))%Qc v else c0) (range (-3) 4))
             = cscale (step_share y m a * share K N x b)%Qc v).
  { intro m. rewrite <- window_share, <- total_scale, <- total_c_scale. f_equal. apply map_ext. intro l.
    rewrite cell_pair by (try lia; apply Z.mod_pos_bound; lia). unfold step_share.
    destruct ((nearest y + m) mod N =? a), ((nearest x + l) mod N =? b); cbn [andb]; try reflexivity; destruct v; unfold cscale, c0; cbn [fst snd]; f_equal; ring. }
  rewrite (map_ext _ _ E). rewrite total_c_scale. f_equal. rewrite <- (window_share y a).
  generalize (share K N x b). intro c. rewrite Qcmult_comm, <- total_scale. apply total_ext. intros. ring.
Qed.
(** The plane made of a list of visibilities. *)
Definition fits (uvRes : Qc) (s : sample) : Prop := in_plane (s_u s / uvRes)%Qc /\ in_plane (s_v s / - uvRes)%Qc.
Lemma sub_grid_ok uvRes value xs : (forall s, In s xs -> fits uvRes s) ->
  exists g, sub_grid K N uvRes value xs = Some g /\
            forall a b, 0 <= a < N -> 0 <= b < N -> g (N * a + b) = plane_cell K N (map (fun s => ((s_u s / uvRes)%Qc, (s_v s / - uvRes)%Qc, value s)) xs) a b.
Proof.
  intro H. unfold sub_grid.
  destruct (adds_fold (grid_sample K N uvRes value) (fun s => flat_share (s_v s / - uvRes)%Qc (s_u s / uvRes)%Qc (value s)) xs
              (fun s Hs => sample_adds uvRes value s (proj1 (H s Hs)) (proj2 (H s Hs))) (fun _ => c0)) as [g [E G]].
  exists g. split; [exact E|]. intros a b Ha Hb. rewrite G. unfold plane_cell. rewrite map_map.
  replace (cadd c0) with (fun x => cadd c0 x) by reflexivity. rewrite c_comm, c_r0. f_equal. apply map_ext. intro s. apply flat_share_cell; auto.
Qed.
End Sample.

(** ** Totals *)
Lemma total_swap {X Y} (f : X -> Y -> Qc) l r : total (map (fun x => total (map (f x) r)) l) = total (map (fun y => total (map (fun x => f x y) l)) r).
Proof.
  induction l as [|x l IH]; cbn [map total].
  - induction r as [|y r IHr]; cbn [map total]; [reflexivity|]. rewrite <- IHr. ring.
  - rewrite IH. clear IH. induction r as [|y r IHr]; cbn [map total]; [ring|]. rewrite <- IHr. ring.
Qed.
Lemma total_single (N : Z) (w : Qc) p : 0 <= p < N -> total (map (fun a => if p =? a then w else 0%Qc) (range 0 N)) = w.
Proof.
  intro H. rewrite (range_app 0 p N), (range_cons p N) by lia. rewrite map_app, total_app. cbn [map total]. rewrite Z.eqb_refl.
  assert (Z0 : forall lo hi, (forall a, lo <= a < hi -> a <> p) -> total (map (fun a => if p =? a then w else 0%Qc) (range lo hi)) = 0%Qc).
  { intros lo hi Hd. rewrite (total_ext _ (fun _ => 0%Qc)).
    - clear. induction (range lo hi) as [|k l IH]; cbn [map total]; [reflexivity|]. rewrite IH. ring.
    - intros a Ha. apply range_in in Ha. specialize (Hd a Ha). destruct (Z.eqb_spec p a); [congruence|reflexivity]. }
  rewrite !Z0 by (intros; lia). ring.
Qed.
Lemma share_total K N x : 0 < N -> total (map (share K N x) (range 0 N)) = whole K x.
Proof.
  intro H. unfold share, whole. rewrite (total_swap (fun a p => if p mod N =? a then weight_at K x p else 0%Qc)). apply total_ext. intros p _.
  apply total_single, Z.mod_pos_bound, H.
Qed.
