(** The weighting of the planes of an image object. *)
From Coq Require Import String List ZArith QArith Qcanon Bool Lia.
From Verif Require Import LibList M_Py M_Base P_Base M_Corr S_Corr P_Corr M_Grid S_Grid.
Import ListNotations.
Open Scope Z_scope.

Definition finite {A} (l : list A) : list (option A) := map Some l.
(** An object whose uv plane is [uv] and whose first beam plane is [bm], followed by others. *)
Definition object (uv bm : list complex) (more : list (list (option C))) : img := mkImg (finite uv) (finite bm :: more).

Lemma wgt_object uv bm more : wgt_of (object uv bm more) = map (fun z => Some (fst z)) bm.
Proof. unfold wgt_of, object, finite. cbn [i_bm]. change (znth [] 0 (map Some bm :: more)) with (map Some bm). rewrite map_map. reflexivity. Qed.
Lemma combine_maps {X A B} (f : X -> A) (g : X -> B) l : combine (map f l) (map g l) = map (fun x => (f x, g x)) l.
Proof. induction l as [|x l IH]; cbn [map combine]; [reflexivity|rewrite IH; reflexivity]. Qed.
Lemma zip_form (uv bm : list complex) : length uv = length bm -> exists l : list (complex * complex), uv = map snd l /\ bm = map fst l.
Proof.
  revert bm. induction uv as [|z uv IH]; intros [|w bm] H; try discriminate; [exists []; auto|]. injection H as H. destruct (IH bm H) as [l [-> ->]]. exists ((w, z) :: l). auto.
Qed.
Lemma over_scale w z : cscale (/ w)%Qc z = over w z.
Proof. destruct z. unfold cscale, over, Qcdiv. cbn [fst snd]. f_equal; apply Qcmult_comm. Qed.
Lemma set_uv a uv bm more : set_array (-1) a (mkImg uv (bm :: more)) = mkImg a (bm :: more). Proof. reflexivity. Qed.

(** reweigh on the uv plane *)
Lemma reweigh_uv (l : list (complex * complex)) (f : Qc -> option Qc) more :
  reweigh (-1) (map (fun p => f (fst (fst p))) l) (object (map snd l) (map fst l) more)
  = mkImg (map (fun p => if Qc_eq_bool (fst (fst p)) 0 then Some c0 else times (f (fst (fst p))) (Some (snd p))) l) (finite (map fst l) :: more).
Proof.
  unfold reweigh, object. rewrite set_uv. unfold array_of. cbn [Z.ltb Z.compare i_uv]. rewrite set_uv. f_equal. unfold wgt_of. cbn [i_bm].
  change (znth [] 0 (finite (map fst l) :: more)) with (finite (map fst l)). unfold finite, zero_where, multiply. rewrite !map_map, combine_maps, map_map, combine_maps, map_map. apply map_ext.
  intros [w z]. cbn [fst snd option_map is_zero]. reflexivity.
Qed.
Lemma recip_wgt (l : list (complex * complex)) more : map recip (wgt_of (object (map snd l) (map fst l) more)) = map (fun p => recip (Some (fst (fst p)))) l.
Proof. rewrite wgt_object, !map_map. reflexivity. Qed.
Definition both (p : complex * complex) : Qc * complex := (fst (fst p), snd p).
Lemma times_recip w z : Qc_eq_bool w 0 = false -> times (recip (Some w)) (Some z) = Some (over w z).
Proof. intro H. cbn [recip]. rewrite H. cbn [times]. rewrite over_scale. reflexivity. Qed.
Lemma uniform_uv (l : list (complex * complex)) more robust taper :
  image "uniform" robust taper (object (map snd l) (map fst l) more)
  = (object (map (fun p => uniform_cell (both p)) l) (map fst l) more,
     Ok (match taper with None => finite (map (fun p => uniform_cell (both p)) l) | Some t => multiply (map Some t) (finite (map (fun p => uniform_cell (both p)) l)) end)).
Proof.
  unfold image, gen_img. cbn [existsb String.eqb Ascii.eqb Bool.eqb orb negb]. rewrite recip_wgt, (reweigh_uv l (fun w => recip (Some w))).
  assert (E : map (fun p => if Qc_eq_bool (fst (fst p)) 0 then Some c0 else times (recip (Some (fst (fst p)))) (Some (snd p))) l = finite (map (fun p => uniform_cell (both p)) l)).
  { unfold finite. rewrite map_map. apply map_ext. intros [[a b] z]. unfold uniform_cell, both. cbn [fst snd]. destruct (Qc_eq_bool a 0) eqn:T; [reflexivity|]. apply times_recip, T. }
  rewrite E. reflexivity.
Qed.

(** briggs *)
Lemma osum_total (l : list Qc) : osum (map Some l) = Some (total l).
Proof.
  unfold osum. assert (G : forall l a, fold_left (fun s x => match s, x with Some s, Some x => Some (s + x)%Qc | _, _ => None end) (map Some l) (Some a) = Some (a + total l)%Qc).
  { induction l0 as [|x r IH]; intro a; cbn [map fold_left total]; [f_equal; ring|rewrite IH; f_equal; ring]. }
  rewrite G. f_equal. ring.
Qed.
Definition briggs_s (robust : Qc) (w : list Qc) : Qc := (num 25 * robust * total w / sum_sq w)%Qc.
Lemma briggs_factor_ok robust (w : list Qc) : total w <> 0%Qc -> sum_sq w <> 0%Qc ->
  briggs_factor robust (map Some w) = map (fun x => recip (Some (1 + x * briggs_s robust w)%Qc)) w.
Proof.
  intros H1 H2. unfold briggs_factor.
  assert (Esq : map (option_map (fun x => x * x)%Qc) (map Some w) = map Some (map (fun x => x * x)%Qc w)) by (rewrite !map_map; reflexivity).
  rewrite Esq, !osum_total. fold (sum_sq w).
  assert (T1 : Qc_eq_bool (total w) 0 = false) by (apply not_true_is_false; intro E; apply Qc_eq_bool_correct in E; contradiction).
  assert (T2 : Qc_eq_bool (sum_sq w) 0 = false) by (apply not_true_is_false; intro E; apply Qc_eq_bool_correct in E; contradiction).
  rewrite T1, T2. cbn [orb]. rewrite map_map. apply map_ext. intro x. do 2 f_equal.
  assert (E : (qz 25 * robust / (sum_sq w / total w) = briggs_s robust w)%Qc) by (unfold briggs_s; change qz with num; field; auto). rewrite E. reflexivity.
Qed.
Lemma briggs_uv (l : list (complex * complex)) more robust taper : let w := map (fun p => fst (fst p)) l in let s := briggs_s robust w in
  total w <> 0%Qc -> sum_sq w <> 0%Qc -> (forall x, In x w -> (1 + x * s)%Qc <> 0%Qc) ->
  image "briggs" robust taper (object (map snd l) (map fst l) more)
  = (object (map (fun p => briggs_cell s (both p)) l) (map fst l) more,
     Ok (match taper with None => finite (map (fun p => briggs_cell s (both p)) l) | Some t => multiply (map Some t) (finite (map (fun p => briggs_cell s (both p)) l)) end)).
Proof.
  intros w s H1 H2 H3. unfold image, gen_img. cbn [existsb String.eqb Ascii.eqb Bool.eqb orb negb].
  assert (Ew : wgt_of (object (map snd l) (map fst l) more) = map Some w) by (rewrite wgt_object; unfold w; rewrite !map_map; reflexivity). rewrite Ew, briggs_factor_ok by assumption. fold s.
  assert (Ef : map (fun x => recip (Some (1 + x * s)%Qc)) w = map (fun p : complex * complex => recip (Some (1 + fst (fst p) * s)%Qc)) l) by (unfold w; rewrite map_map; reflexivity).
  rewrite Ef, (reweigh_uv l (fun x => recip (Some (1 + x * s)%Qc))).
  assert (E : map (fun p => if Qc_eq_bool (fst (fst p)) 0 then Some c0 else times (recip (Some (1 + fst (fst p) * s)%Qc)) (Some (snd p))) l = finite (map (fun p => briggs_cell s (both p)) l)).
  { unfold finite. rewrite map_map. apply map_ext_in. intros [[a b] z] Hp. unfold briggs_cell, both. cbn [fst snd]. destruct (Qc_eq_bool a 0) eqn:T; [reflexivity|]. apply times_recip.
    apply not_true_is_false. intro X. apply Qc_eq_bool_correct in X. apply (H3 a); [|exact X]. unfold w. apply in_map_iff. exists ((a, b), z). auto. }
  rewrite E. reflexivity.
Qed.

(** The first beam plane. *)
Lemma reweigh_bm uv (bm : list complex) more (f : Qc -> option Qc) : exists more',
  reweigh 0 (map (fun z => f (fst z)) bm) (object uv bm more)
  = mkImg (finite uv) (map (fun z => let y := times (f (fst z)) (Some z) in if is_zero (option_map fst y) then Some c0 else y) bm :: more').
Proof.
  unfold reweigh, object, set_array, array_of. cbn [Z.ltb Z.compare i_bm i_uv]. rewrite (range_cons 0) by (rewrite zlen_cons; pose proof (zlen_nonneg more); lia).
  cbn [combine map fst snd Z.eqb i_bm]. eexists. f_equal.
  change (znth [] 0 (finite bm :: more)) with (finite bm).
  set (y := multiply (map (fun z => f (fst z)) bm) (finite bm)).
  assert (Ey : y = map (fun z => times (f (fst z)) (Some z)) bm) by (unfold y, multiply, finite; rewrite combine_maps, map_map; reflexivity).
  match goal with |- context [zlen (y :: ?m)] => set (mm := m) end.
  rewrite (range_cons 0 (zlen (y :: mm))) by (rewrite zlen_cons; pose proof (zlen_nonneg mm); lia). cbn [combine map fst snd Z.eqb]. f_equal.
  unfold wgt_of. cbn [i_bm]. change (znth [] 0 (y :: mm)) with y. unfold zero_where. rewrite Ey, map_map, combine_maps, map_map. reflexivity.
Qed.
Lemma nth_finite {A} (d : A) l i : 0 <= i < zlen l -> znth None i (finite l) = Some (znth d i l).
Proof. intro H. unfold finite. apply (znth_map A (option A) Some d). exact H. Qed.

(** Any later beam plane. *)
Lemma keep_planes (a : list (option C)) which : forall m s, (forall j, 0 <= j < zlen m -> s + j <> which) ->
  map (fun kb : Z * list (option C) => if fst kb =? which then a else snd kb) (combine (range s (s + zlen m)) m) = m.
Proof.
  induction m as [|x m IH]; intros s H; [rewrite combine_nil; reflexivity|]. rewrite zlen_cons. pose proof (zlen_nonneg m). rewrite range_cons by lia. cbn [combine map fst snd].
  destruct (Z.eqb_spec s which) as [E|_]; [exfalso; apply (H 0); [rewrite zlen_cons; lia|lia]|]. f_equal. replace (s + (1 + zlen m)) with (s + 1 + zlen m) by lia. apply IH.
  intros j Hj. specialize (H (j + 1)). rewrite zlen_cons in H. intro E. apply H; lia.
Qed.
Lemma set_plane (a x : list (option C)) m2 which : forall m s, which = s + zlen m ->
  map (fun kb : Z * list (option C) => if fst kb =? which then a else snd kb) (combine (range s (s + zlen (m ++ x :: m2))) (m ++ x :: m2)) = m ++ a :: m2.
Proof.
  induction m as [|y m IH]; intros s E; cbn [app]; rewrite zlen_cons.
  - pose proof (zlen_nonneg m2). rewrite range_cons by lia. cbn [combine map fst snd]. change (zlen (@nil (list (option C)))) with 0 in E. destruct (Z.eqb_spec s which) as [_|N]; [|lia]. f_equal.
    replace (s + (1 + zlen m2)) with (s + 1 + zlen m2) by lia. apply keep_planes. intros j Hj. lia.
  - pose proof (zlen_nonneg (m ++ x :: m2)). rewrite range_cons by lia. rewrite zlen_cons in E. pose proof (zlen_nonneg m). cbn [combine map fst snd]. destruct (Z.eqb_spec s which) as [N|_]; [lia|]. f_equal.
    replace (s + (1 + zlen (m ++ x :: m2))) with (s + 1 + zlen (m ++ x :: m2)) by lia. apply IH. lia.
Qed.
Lemma set_term uv m x m2 a : set_array (zlen m) a (mkImg uv (m ++ x :: m2)) = mkImg uv (m ++ a :: m2).
Proof.
  unfold set_array. pose proof (zlen_nonneg m). destruct (Z.ltb_spec (zlen m) 0); [lia|]. cbn [i_uv i_bm]. f_equal. rewrite <- (Z.add_0_l (zlen (m ++ x :: m2))). apply set_plane. lia.
Qed.
Lemma array_term uv m x m2 : array_of (zlen m) (mkImg uv (m ++ x :: m2)) = x.
Proof.
  unfold array_of. pose proof (zlen_nonneg m). destruct (Z.ltb_spec (zlen m) 0); [lia|]. cbn [i_bm]. unfold znth, zlen. rewrite Nat2Z.id, app_nth2, Nat.sub_diag by lia. destruct (Z.ltb_spec (Z.of_nat (length m)) 0); [lia|reflexivity].
Qed.
Lemma uniform_term (l : list (complex * complex)) uv m1 m2 robust taper :
  bm_image (1 + zlen m1) "uniform" robust taper (object uv (map fst l) (m1 ++ finite (map snd l) :: m2))
  = (object uv (map fst l) (m1 ++ finite (map (fun p => uniform_cell (both p)) l) :: m2),
     Ok (match taper with None => finite (map (fun p => uniform_cell (both p)) l) | Some t => multiply (map Some t) (finite (map (fun p => uniform_cell (both p)) l)) end)).
Proof.
  assert (L : 1 + zlen m1 = zlen (finite (map fst l) :: m1)) by (rewrite zlen_cons; lia).
  assert (Sh : forall y, object uv (map fst l) (m1 ++ y :: m2) = mkImg (finite uv) ((finite (map fst l) :: m1) ++ y :: m2)) by reflexivity.
  assert (Wg : forall y, wgt_of (object uv (map fst l) (m1 ++ y :: m2)) = map (fun p => Some (fst (fst p))) l) by (intro y; rewrite wgt_object, map_map; reflexivity).
  unfold bm_image, gen_img. cbn [existsb String.eqb Ascii.eqb Bool.eqb orb negb].
  assert (R : reweigh (1 + zlen m1) (map recip (wgt_of (object uv (map fst l) (m1 ++ finite (map snd l) :: m2)))) (object uv (map fst l) (m1 ++ finite (map snd l) :: m2))
    = object uv (map fst l) (m1 ++ finite (map (fun p => uniform_cell (both p)) l) :: m2)).
  { unfold reweigh. rewrite Wg. rewrite (Sh (finite (map snd l))), L, array_term, set_term, array_term, <- Sh, Wg. rewrite Sh, set_term, <- Sh. f_equal. f_equal. f_equal.
    unfold finite, zero_where, multiply. rewrite !map_map, combine_maps, map_map, combine_maps, map_map. apply map_ext. intros [[a b] z]. unfold uniform_cell, both. cbn [fst snd is_zero].
    destruct (Qc_eq_bool a 0) eqn:T; [reflexivity|]. apply times_recip, T. }
  rewrite R. f_equal. f_equal. rewrite Sh, L, array_term. reflexivity.
Qed.
