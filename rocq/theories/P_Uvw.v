From Coq Require Import List ZArith Reals Bool Lia Lra Psatz.
From Verif Require Import M_Py M_Base S_Base P_Base M_Uvw S_Uvw.
Import ListNotations.
Open Scope R_scope.

Lemma ha_rad_ok : forall a, ha_rad a = Ok (ha_means a).
Proof.
  intros [h m s|n d m s|r|r|x]; unfold ha_rad, ha_means, hms_to_rad, dms_to_rad, deg_to_rad, hours, degrees; f_equal; try field.
  - destruct n; field.
Qed.
Lemma dec_rad_ok : forall a r, dec_means a = Some r -> dec_rad a = Ok r.
Proof.
  intros [h m s|n d m s|r|r|x] r0 E; unfold dec_rad, dec_means, dms_to_rad, deg_to_rad, degrees in *; inversion E; f_equal; try field.
  - destruct n; field.
Qed.
Lemma dec_rad_hms : forall a, dec_means a = None -> dec_rad a = Raise TypeError.
Proof. intros [h m s|n d m s|r|r|x] E; inversion E; reflexivity. Qed.

(** ** All pairs, from their description *)
Lemma ssorted_lex_eq : forall l l', Sorted.StronglySorted lex_lt l -> Sorted.StronglySorted lex_lt l' -> (forall p, In p l <-> In p l') -> l = l'.
Proof.
  assert (NL : forall p, ~ lex_lt p p) by (intros [i j] [H|[H H']]; cbn in *; lia).
  assert (AS : forall p q, lex_lt p q -> lex_lt q p -> False) by (intros [i j] [k m] [H|[H H']] [G|[G G']]; cbn in *; lia).
  induction l as [|p l IH]; intros l' H H' E.
  - destruct l' as [|q l']; [reflexivity|]. exfalso. apply (proj2 (E q)). left. reflexivity.
  - destruct l' as [|q l']; [exfalso; apply (proj1 (E p)); left; reflexivity|].
    inversion H as [|? ? H1 H2]; subst. inversion H' as [|? ? G1 G2]; subst. rewrite Forall_forall in H2, G2.
    assert (p = q).
    { destruct (proj1 (E p) (or_introl eq_refl)) as [X|X]; [auto|]. destruct (proj2 (E q) (or_introl eq_refl)) as [Y|Y]; [auto|].
      exfalso. apply (AS p q); auto. }
    subst q. f_equal. apply IH; auto. intro r. split; intro X.
    + destruct (proj1 (E r) (or_intror X)) as [Y|Y]; [|auto]. subst r. exfalso. apply (NL p), H2, X.
    + destruct (proj2 (E r) (or_intror X)) as [Y|Y]; [|auto]. subst r. exfalso. apply (NL p), G2, X.
Qed.

Lemma collect_oks : forall {A B} (f : A -> B) l, collect (map (fun x => Ok (f x)) l) = Ok (map f l).
Proof. induction l; cbn; [reflexivity|]. rewrite IHl. reflexivity. Qed.

Lemma pick_asks : forall l auto bl, asks l auto bl -> pick_baselines l auto = Ok (map (fun p => Ok p) bl).
Proof.
  intros l auto bl [(d & ants & idx & NE & -> & AP & ->)|(NE & ->)].
  - destruct ants as [|a ants]; [contradiction|]. set (L := a :: ants) in *.
    assert (idx = pairs (if auto then 0 else 1)%Z (zlen L)) as ->.
    { destruct AP as [S1 E1]. destruct (pairs_all auto (zlen L)) as [S2 E2]. apply ssorted_lex_eq; auto. intros [i j]. rewrite E1, E2. tauto. }
    unfold pick_baselines. change (map IAnt L) with (IAnt a :: map IAnt ants). cbv beta iota.
    change (IAnt a :: map IAnt ants) with (map IAnt L).
    rewrite (get_baselines_ok (IAnt d)) by lia. unfold bind at 1. f_equal. unfold zlen at 1. rewrite map_length. fold (zlen L).
    rewrite !map_map. apply map_ext_in. intros [i j] HI. apply pairs_in in HI. destruct HI as (Hi & Hj & _). cbn [fst snd].
    rewrite !(znth_map _ _ _ d) by lia. reflexivity.
  - destruct bl as [|[x y] bl]; [contradiction|]. unfold pick_baselines. cbn [map fst snd length Nat.eqb]. f_equal.
    f_equal. rewrite map_map. apply map_ext. intros [p q]. reflexivity.
Qed.

(** ** The axes *)
Definition ax_u (lat ha dec : R) : vec := V (cos ha) (- (sin ha * sin lat)) (sin ha * cos lat).
Definition ax_v (lat ha dec : R) : vec :=
  V (sin dec * sin ha) (sin dec * cos ha * sin lat + cos dec * cos lat) (- (sin dec * cos ha * cos lat) + cos dec * sin lat).
Lemma axes_ok : forall lat ha dec, uvw_axes lat ha dec (ax_u lat ha dec) (ax_v lat ha dec) (source lat ha dec).
Proof.
  intros lat ha dec. assert (A := sin2_cos2 lat). assert (B := sin2_cos2 ha). assert (C := sin2_cos2 dec). unfold Rsqr in *.
  unfold uvw_axes, inner, cross, ax_u, ax_v, source, pole; cbn [east north up].
  set (sl := sin lat) in *. set (cl := cos lat) in *. set (sh := sin ha) in *. set (ch := cos ha) in *. set (sd := sin dec) in *. set (cd := cos dec) in *.
  assert (A' : sl * sl = 1 - cl * cl) by lra. assert (B' : sh * sh = 1 - ch * ch) by lra. assert (C' : sd * sd = 1 - cd * cd) by lra.
  repeat split.
  - replace (ch * ch + - (sh * sl) * - (sh * sl) + sh * cl * (sh * cl)) with (ch * ch + (sh * sh) * (sl * sl + cl * cl)) by ring. rewrite A, B'. ring.
  - replace (_ + _ + _) with ((sd * sd) * (sh * sh) + (sd * sd) * (ch * ch) * (sl * sl + cl * cl) + cd * cd * (sl * sl + cl * cl)) by ring. rewrite A, B', C'. ring.
  - replace (_ + _ + _) with ((cd * cd) * (sh * sh) + (sd * sd) * (sl * sl + cl * cl) + cd * cd * (ch * ch) * (sl * sl + cl * cl)) by ring. rewrite A, B', C'. ring.
  - replace (_ + _ + _) with (sh * ch * sd * (1 - (sl * sl + cl * cl))) by ring. rewrite A. ring.
  - replace (_ + _ + _) with (- (cd * sh * ch) * (1 - (sl * sl + cl * cl))) by ring. rewrite A. ring.
  - replace (_ + _ + _) with (sd * cd * (- (sh * sh) - (ch * ch) * (sl * sl + cl * cl) + (sl * sl + cl * cl))) by ring. rewrite A, B'. ring.
  - f_equal.
    + replace (_ - _) with (- (sh * cd) * (sl * sl + cl * cl)) by ring. rewrite A. ring.
    + replace (_ - _) with (sd * cl * (sh * sh + ch * ch) - cd * ch * sl) by ring. rewrite B. ring.
    + replace (_ - _) with (ch * cd * cl + sd * sl * (ch * ch + sh * sh)) by ring. replace (ch * ch + sh * sh) with 1 by lra. ring.
  - ring.
  - replace (_ + _ + _) with (cd * (sl * sl + cl * cl)) by ring. rewrite A. ring.
Qed.
Lemma mat_axes : forall lat ha dec a b,
  mat_vec (mat_mul (trans2 ha dec) (trans1 lat)) (stand_sub a b) =
  (inner (ax_u lat ha dec) (sep a b), inner (ax_v lat ha dec) (sep a b), inner (source lat ha dec) (sep a b)).
Proof.
  intros. unfold mat_vec, mat_mul, mat_row, trans2, trans1, stand_sub, dot, col, inner, ax_u, ax_v, source, sep. cbn [east north up].
  f_equal; [f_equal|]; ring.
Qed.

(** What [freq] stands for: shape and values *)
Definition uvw_rows (light : R) (u v w : vec) (fs : list R) (bl : list (ant * ant)) : list (list R * list R * list R) :=
  map (fun '(a, b) => (map (fun f => inner u (sep a b) * f / light) fs, map (fun f => inner v (sep a b) * f / light) fs, map (fun f => inner w (sep a b) * f / light) fs)) bl.

Lemma compute_uvw_ok : forall light l HA dec freq lat auto bl d shape fs, asks l auto bl -> dec_means dec = Some d -> freq_array freq = Ok (shape, fs) ->
  compute_uvw light l HA dec freq lat auto =
  Ok (zlen bl :: 3%Z :: shape, uvw_rows light (ax_u lat (ha_means HA) d) (ax_v lat (ha_means HA) d) (source lat (ha_means HA) d) fs bl).
Proof.
  intros light l HA dec freq lat auto bl d shape fs H D F. unfold compute_uvw. rewrite F. unfold bind at 1. rewrite (pick_asks _ _ _ H). unfold bind at 1.
  rewrite ha_rad_ok. unfold bind at 1. rewrite (dec_rad_ok _ _ D). unfold bind at 1. rewrite map_map.
  assert (E : forall bl, collect (map (fun x => bind (Ok x) (fun '(a1, a2) =>
     let '(x0, y, z) := mat_vec (mat_mul (trans2 (ha_means HA) d) (trans1 lat)) (stand_sub a1 a2) in
     Ok (map (fun f => x0 * f / light) fs, map (fun f => y * f / light) fs, map (fun f => z * f / light) fs))) bl) =
     Ok (uvw_rows light (ax_u lat (ha_means HA) d) (ax_v lat (ha_means HA) d) (source lat (ha_means HA) d) fs bl)).
  { intro l'. unfold uvw_rows. induction l' as [|[a b] l' IH]; [reflexivity|]. cbn [map collect]. rewrite IH. unfold bind. rewrite mat_axes. reflexivity. }
  cbv zeta in *. rewrite E. unfold bind. unfold zlen. rewrite map_length. reflexivity.
Qed.

Lemma axes_length : forall lat ha dec d, inner (ax_u lat ha dec) d ^ 2 + inner (ax_v lat ha dec) d ^ 2 + inner (source lat ha dec) d ^ 2 = inner d d.
Proof.
  intros lat ha dec d. assert (A := sin2_cos2 lat). assert (B := sin2_cos2 ha). assert (C := sin2_cos2 dec). unfold Rsqr in *.
  unfold inner, ax_u, ax_v, source. cbn [east north up]. set (e := east d). set (n := north d). set (w := up d).
  set (sl := sin lat) in *. set (cl := cos lat) in *. set (sh := sin ha) in *. set (ch := cos ha) in *. set (sd := sin dec) in *. set (cd := cos dec) in *.
  set (x := - (sl * n) + cl * w). set (z := cl * n + sl * w).
  replace (ch * e + - (sh * sl) * n + sh * cl * w) with (ch * e + sh * x) by (unfold x; ring).
  replace (sd * sh * e + (sd * ch * sl + cd * cl) * n + (- (sd * ch * cl) + cd * sl) * w) with (sd * (sh * e - ch * x) + cd * z) by (unfold x, z; ring).
  replace (- (cd * sh) * e + (sd * cl - cd * ch * sl) * n + (sd * sl + cd * ch * cl) * w) with (sd * z - cd * (sh * e - ch * x)) by (unfold x, z; ring).
  replace (_ + _ + _) with ((ch * e + sh * x) ^ 2 + (sd * sd + cd * cd) * ((sh * e - ch * x) ^ 2 + z ^ 2)) by ring. rewrite C.
  replace (_ + _) with ((sh * sh + ch * ch) * (e ^ 2 + x ^ 2) + z ^ 2) by ring. rewrite B.
  replace (1 * (e ^ 2 + x ^ 2) + z ^ 2) with (e ^ 2 + (n ^ 2 + w ^ 2) * (sl * sl + cl * cl)) by (unfold x, z; ring). rewrite A. ring.
Qed.
Lemma axes_unique : forall lat ha dec u v w u' v' w', cos dec <> 0 -> uvw_axes lat ha dec u v w -> uvw_axes lat ha dec u' v' w' -> u = u' /\ v = v' /\ w = w'.
Proof.
  (* pole = cos dec v + (pole.w) w in the frame (u, v, w), so v is fixed, and u = v x w *)
  assert (K : forall lat ha dec u v w, uvw_axes lat ha dec u v w -> cos dec * east v = east (pole lat) - inner (pole lat) w * east w /\
     cos dec * north v = north (pole lat) - inner (pole lat) w * north w /\ cos dec * up v = up (pole lat) - inner (pole lat) w * up w /\ u = cross v w).
  { intros lat ha dec u v w (_ & UU & VV & WW & UV & UW & VW & CR & UP & VP).
    destruct u as [u1 u2 u3], v as [v1 v2 v3], w as [w1 w2 w3]. destruct (pole lat) as [p1 p2 p3]. unfold inner, cross in *. cbn [east north up] in *.
    injection CR as C1 C2 C3. rewrite <- VP.
    assert (X : V u1 u2 u3 = V (v2 * w3 - v3 * w2) (v3 * w1 - v1 * w3) (v1 * w2 - v2 * w1)).
    { rewrite <- C1, <- C2, <- C3. f_equal.
      - replace (_ - _) with (u1 * (v1 * v1 + v2 * v2 + v3 * v3) - v1 * (u1 * v1 + u2 * v2 + u3 * v3)) by ring. rewrite VV, UV. ring.
      - replace (_ - _) with (u2 * (v1 * v1 + v2 * v2 + v3 * v3) - v2 * (u1 * v1 + u2 * v2 + u3 * v3)) by ring. rewrite VV, UV. ring.
      - replace (_ - _) with (u3 * (v1 * v1 + v2 * v2 + v3 * v3) - v3 * (u1 * v1 + u2 * v2 + u3 * v3)) by ring. rewrite VV, UV. ring. }
    assert (X' := X). injection X' as X1 X2 X3.
    (* p in the frame (u, v, w), by Cramer's rule *)
    assert (Y1 : p1 = (u1 * p1 + u2 * p2 + u3 * p3) * u1 + (v1 * p1 + v2 * p2 + v3 * p3) * v1 + (w1 * p1 + w2 * p2 + w3 * p3) * w1 /\
                 p2 = (u1 * p1 + u2 * p2 + u3 * p3) * u2 + (v1 * p1 + v2 * p2 + v3 * p3) * v2 + (w1 * p1 + w2 * p2 + w3 * p3) * w2 /\
                 p3 = (u1 * p1 + u2 * p2 + u3 * p3) * u3 + (v1 * p1 + v2 * p2 + v3 * p3) * v3 + (w1 * p1 + w2 * p2 + w3 * p3) * w3).
    { assert (Z1 : v1 = w2 * u3 - w3 * u2 /\ v2 = w3 * u1 - w1 * u3 /\ v3 = w1 * u2 - w2 * u1).
      { rewrite <- C1, <- C2, <- C3. split; [|split].
        - replace (_ - _) with (v1 * (u1 * u1 + u2 * u2 + u3 * u3) - u1 * (u1 * v1 + u2 * v2 + u3 * v3)) by ring. rewrite UU, UV. ring.
        - replace (_ - _) with (v2 * (u1 * u1 + u2 * u2 + u3 * u3) - u2 * (u1 * v1 + u2 * v2 + u3 * v3)) by ring. rewrite UU, UV. ring.
        - replace (_ - _) with (v3 * (u1 * u1 + u2 * u2 + u3 * u3) - u3 * (u1 * v1 + u2 * v2 + u3 * v3)) by ring. rewrite UU, UV. ring. }
      destruct Z1 as (Z1 & Z2 & Z3).
      assert (DT : u1 * (v2 * w3 - v3 * w2) + u2 * (v3 * w1 - v1 * w3) + u3 * (v1 * w2 - v2 * w1) = 1) by (rewrite <- X1, <- X2, <- X3; exact UU).
      assert (CRAMER : forall p r s t, p * (u1 * (v2 * w3 - v3 * w2) + u2 * (v3 * w1 - v1 * w3) + u3 * (v1 * w2 - v2 * w1)) = r ->
        r = s -> s = t -> p = t) by (intros p r s t G1 G2 G3; rewrite DT in G1; lra).
      split; [|split].
      - eapply CRAMER; [reflexivity| |].
        + instantiate (1 := ((v2 * w3 - v3 * w2) * p1 + (v3 * w1 - v1 * w3) * p2 + (v1 * w2 - v2 * w1) * p3) * u1 + ((w2 * u3 - w3 * u2) * p1 + (w3 * u1 - w1 * u3) * p2 + (w1 * u2 - w2 * u1) * p3) * v1 + ((u2 * v3 - u3 * v2) * p1 + (u3 * v1 - u1 * v3) * p2 + (u1 * v2 - u2 * v1) * p3) * w1). ring.
        + rewrite <- X1, <- X2, <- X3, <- Z1, <- Z2, <- Z3, C1, C2, C3. reflexivity.
      - eapply CRAMER; [reflexivity| |].
        + instantiate (1 := ((v2 * w3 - v3 * w2) * p1 + (v3 * w1 - v1 * w3) * p2 + (v1 * w2 - v2 * w1) * p3) * u2 + ((w2 * u3 - w3 * u2) * p1 + (w3 * u1 - w1 * u3) * p2 + (w1 * u2 - w2 * u1) * p3) * v2 + ((u2 * v3 - u3 * v2) * p1 + (u3 * v1 - u1 * v3) * p2 + (u1 * v2 - u2 * v1) * p3) * w2). ring.
        + rewrite <- X1, <- X2, <- X3, <- Z1, <- Z2, <- Z3, C1, C2, C3. reflexivity.
      - eapply CRAMER; [reflexivity| |].
        + instantiate (1 := ((v2 * w3 - v3 * w2) * p1 + (v3 * w1 - v1 * w3) * p2 + (v1 * w2 - v2 * w1) * p3) * u3 + ((w2 * u3 - w3 * u2) * p1 + (w3 * u1 - w1 * u3) * p2 + (w1 * u2 - w2 * u1) * p3) * v3 + ((u2 * v3 - u3 * v2) * p1 + (u3 * v1 - u1 * v3) * p2 + (u1 * v2 - u2 * v1) * p3) * w3). ring.
        + rewrite <- X1, <- X2, <- X3, <- Z1, <- Z2, <- Z3, C1, C2, C3. reflexivity. }
    destruct Y1 as (Y1 & Y2 & Y3). rewrite UP in *.
    split; [lra|]. split; [lra|]. split; [lra|exact X]. }
  intros lat ha dec u v w u' v' w' N A B. destruct (K _ _ _ _ _ _ A) as (A1 & A2 & A3 & A4). destruct (K _ _ _ _ _ _ B) as (B1 & B2 & B3 & B4).
  assert (w = w') as <-. { destruct A as [A _], B as [B _]. congruence. }
  assert (v = v') as <-. { destruct v as [v1 v2 v3], v' as [x1 x2 x3]. cbn [east north up] in *. f_equal; apply (Rmult_eq_reg_l (cos dec)); congruence. }
  split; [congruence|]. split; reflexivity.
Qed.
