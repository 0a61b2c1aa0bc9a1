From Coq Require Import List ZArith Reals Bool Lia Lra Psatz.
From Verif Require Import M_Py M_Base S_Base P_Base M_Uvw S_Uvw P_Uvw.
Import ListNotations.
Open Scope R_scope.

Lemma angle_exists : forall s c, s * s + c * c = 1 -> exists h, sin h = s /\ cos h = c.
Proof.
  intros s c H. assert (C : -1 <= c <= 1) by nra.
  assert (E : 1 - c² = s * s) by (unfold Rsqr; lra).
  destruct (Rle_or_lt 0 s) as [P|P].
  - exists (acos c). split; [|apply cos_acos; lra]. rewrite sin_acos by lra. rewrite E. apply sqrt_square. lra.
  - exists (- acos c). split.
    + rewrite sin_neg, sin_acos by lra. rewrite E. replace (s * s) with ((- s) * (- s)) by ring. rewrite sqrt_square by lra. ring.
    + rewrite cos_neg. apply cos_acos. lra.
Qed.

Definition tx (lat : R) (d : vec) : R := - (sin lat * north d) + cos lat * up d.
Lemma trans1_vec : forall lat a b, mat_vec (trans1 lat) (stand_sub a b) = (tx lat (sep a b), east (sep a b), inner (sep a b) (pole lat)).
Proof. intros. unfold mat_vec, trans1, stand_sub, dot, tx, inner, pole, sep. cbn [east north up]. f_equal; [f_equal|]; ring. Qed.
Lemma axis_sq : forall lat d, inner d d - inner d (pole lat) ^ 2 = tx lat d ^ 2 + east d ^ 2.
Proof.
  intros lat d. unfold inner, pole, tx. cbn [east north up]. assert (A := sin2_cos2 lat). unfold Rsqr in A.
  set (s := sin lat) in *. set (c := cos lat) in *. set (n := north d). set (e := east d). set (w := up d).
  replace (e * e + n * n + w * w) with (e * e + (n * n + w * w) * (s * s + c * c)) by (rewrite A; ring). ring.
Qed.
Lemma from_axis_eq : forall lat d, sqrt (tx lat d ^ 2 + east d ^ 2) = from_axis lat d.
Proof. intros. unfold from_axis. rewrite axis_sq. reflexivity. Qed.
Lemma u_eq : forall lat ha dec d, inner (ax_u lat ha dec) d = tx lat d * sin ha + east d * cos ha.
Proof. intros. unfold inner, ax_u, tx. cbn [east north up]. ring. Qed.
Lemma v_eq : forall lat ha dec d, inner (ax_v lat ha dec) d = sin dec * (east d * sin ha - tx lat d * cos ha) + cos dec * inner d (pole lat).
Proof. intros. unfold inner, ax_v, tx, pole. cbn [east north up]. ring. Qed.

(** A point of the circle is reached at some hour angle. *)
Lemma turn : forall x y t s, x ^ 2 + y ^ 2 = t ^ 2 + s ^ 2 -> exists h, x * sin h + y * cos h = t /\ y * sin h - x * cos h = s.
Proof.
  intros x y t s H. destruct (Req_dec (x ^ 2 + y ^ 2) 0) as [Z0|NZ].
  - assert (x = 0) by nra. assert (y = 0) by nra. assert (t = 0) by nra. assert (s = 0) by nra. subst. exists 0. split; ring.
  - destruct (angle_exists ((x * t + y * s) / (x ^ 2 + y ^ 2)) ((y * t - x * s) / (x ^ 2 + y ^ 2))) as (h & E1 & E2).
    { replace (_ + _) with ((x ^ 2 + y ^ 2) * (t ^ 2 + s ^ 2) / ((x ^ 2 + y ^ 2) * (x ^ 2 + y ^ 2))) by (field; exact NZ). rewrite <- H. field. exact NZ. }
    exists h. rewrite E1, E2. split; field; exact NZ.
Qed.
Lemma hours_of : forall h, exists x, ha_means (ANum x) = h.
Proof. intro h. exists (h * 24 / (2 * PI)). cbn. unfold hours. assert (P := PI_neq0). field. lra. Qed.

Lemma linspace_len : forall a b, length (linspace a b) = 256%nat.
Proof. intros. unfold linspace. rewrite map_length, seq_length. reflexivity. Qed.
Lemma linspace_nth : forall a b k d, (k < 256)%nat -> nth k (linspace a b) d = a + INR k * ((b - a) / 255).
Proof.
  intros a b k d H. unfold linspace. rewrite (nth_indep _ _ (a + INR 0 * ((b - a) / 255))) by (rewrite map_length, seq_length; exact H).
  rewrite (map_nth (fun k => a + INR k * ((b - a) / 255)) (seq 0 256) 0%nat). rewrite seq_nth by exact H. reflexivity.
Qed.
Lemma linspace_in : forall r t, 0 <= r -> In t (linspace (- r) r) -> t ^ 2 <= r ^ 2.
Proof.
  intros r t H I. unfold linspace in I. apply in_map_iff in I. destruct I as (k & <- & K). apply in_seq in K.
  assert (0 <= INR k <= 255). { split; [apply pos_INR|]. replace 255 with (INR 255) by (rewrite INR_IZR_INZ; reflexivity). apply le_INR. lia. }
  assert (- r <= - r + INR k * ((r - - r) / 255) <= r); [|nra].
  replace (INR k * ((r - - r) / 255)) with (2 * r * (INR k / 255)) by field.
  assert (0 <= INR k / 255 <= 1). { split; [apply Rmult_le_pos; lra|]. apply (Rmult_le_reg_r 255); [lra|]. unfold Rdiv. rewrite Rmult_assoc, Rinv_l by lra. lra. }
  nra.
Qed.

(** The points of a track: on either side of the middle at equal steps of u *)
Definition scaled (light freq c : R) : R := c * freq / light.
Definition side_u (r : R) (k : nat) : R := r * (2 * INR k / 255 - 1).
Definition side_v (r z dec : R) (k : nat) : R := sqrt (r ^ 2 - side_u r k ^ 2) * sin dec + z * cos dec.
Lemma track_lengths : forall light dec freq xyz, length (fst (track_of light dec freq xyz)) = 512%nat /\ length (snd (track_of light dec freq xyz)) = 512%nat.
Proof. intros light dec freq [[x y] z]. unfold track_of. cbn [fst snd]. rewrite !app_length, !map_length, !rev_length, !map_length, linspace_len. split; reflexivity. Qed.

Lemma zip_nth : forall (f g : R -> R) k u d, (k < length u)%nat -> nth k (map f u) d = f (nth k u d).
Proof. intros f g k u d H. rewrite (nth_indep _ d (f d)) by (rewrite map_length; exact H). apply map_nth. Qed.

Lemma track_first : forall light dec freq x y z k, (k < 256)%nat -> let r := sqrt (x ^ 2 + y ^ 2) in
  let t := - r + INR k * ((r - - r) / 255) in
  nth k (fst (track_of light dec freq (x, y, z))) 0 = scaled light freq t /\
  nth k (snd (track_of light dec freq (x, y, z))) 0 = scaled light freq (sqrt (x ^ 2 + y ^ 2 - t ^ 2) * sin dec + z * cos dec) /\
  nth (511 - k) (fst (track_of light dec freq (x, y, z))) 0 = scaled light freq t /\
  nth (511 - k) (snd (track_of light dec freq (x, y, z))) 0 = scaled light freq (- sqrt (x ^ 2 + y ^ 2 - t ^ 2) * sin dec + z * cos dec).
Proof.
  intros light dec freq x y z k H r t. unfold track_of. cbn [fst snd]. fold r.
  assert (L := linspace_len (- r) r). assert (N := linspace_nth (- r) r k 0 H). fold t in N.
  set (u := linspace (- r) r) in *.
  split; [|split; [|split]].
  - rewrite app_nth1 by (rewrite map_length; lia). rewrite (zip_nth _ (fun x => x)) by lia. rewrite N. reflexivity.
  - rewrite app_nth1 by (rewrite !map_length; lia). rewrite map_map. rewrite (zip_nth _ (fun x => x)) by lia. rewrite N. reflexivity.
  - rewrite app_nth2 by (rewrite map_length; lia). rewrite map_length, L. rewrite (zip_nth _ (fun x => x)) by (rewrite rev_length; lia).
    rewrite rev_nth by lia. replace (length u - S (511 - k - 256))%nat with k by lia. rewrite N. reflexivity.
  - rewrite app_nth2 by (rewrite !map_length; lia). rewrite !map_length, L. rewrite (zip_nth _ (fun x => x)) by (rewrite rev_length, map_length; lia).
    rewrite rev_nth by (rewrite map_length; lia). rewrite map_length, (zip_nth _ (fun x => x)) by lia. replace (length u - S (511 - k - 256))%nat with k by lia. rewrite N. reflexivity.
Qed.
Lemma step_sq : forall r k, 0 <= r -> (k < 256)%nat -> (- r + INR k * ((r - - r) / 255)) ^ 2 <= r ^ 2.
Proof. intros r k H K. apply (linspace_in r); auto. unfold linspace. apply in_map_iff. exists k. split; [reflexivity|]. apply in_seq. lia. Qed.

(** Each of the 512 points is the (u, v) of some hour angle. *)
Lemma track_reached : forall light dec freq x y z k, (k < 512)%nat -> exists h,
  nth k (fst (track_of light dec freq (x, y, z))) 0 = scaled light freq (x * sin h + y * cos h) /\
  nth k (snd (track_of light dec freq (x, y, z))) 0 = scaled light freq (sin dec * (y * sin h - x * cos h) + cos dec * z).
Proof.
  intros light dec freq x y z k H. set (r := sqrt (x ^ 2 + y ^ 2)). assert (R0 : 0 <= r) by apply sqrt_pos.
  assert (R2 : r ^ 2 = x ^ 2 + y ^ 2). { unfold r. rewrite <- Rsqr_pow2, Rsqr_sqrt; [reflexivity|]. nra. }
  destruct (lt_dec k 256) as [K|K].
  - destruct (track_first light dec freq x y z k K) as (A & B & _). fold r in A, B. assert (T := step_sq r k R0 K).
    set (t := - r + INR k * ((r - - r) / 255)) in *.
    destruct (turn x y t (sqrt (x ^ 2 + y ^ 2 - t ^ 2))) as (h & E1 & E2).
    { rewrite <- (Rsqr_pow2 (sqrt _)), Rsqr_sqrt by lra. ring. }
    exists h. rewrite A, B, E1, E2. split; [reflexivity|]. unfold scaled. f_equal. f_equal. ring.
  - destruct (track_first light dec freq x y z (511 - k) ltac:(lia)) as (_ & _ & A & B). fold r in A, B. replace (511 - (511 - k))%nat with k in A, B by lia.
    assert (T := step_sq r (511 - k) R0 ltac:(lia)). set (t := - r + INR (511 - k) * ((r - - r) / 255)) in *.
    destruct (turn x y t (- sqrt (x ^ 2 + y ^ 2 - t ^ 2))) as (h & E1 & E2).
    { replace ((- sqrt (x ^ 2 + y ^ 2 - t ^ 2)) ^ 2) with ((sqrt (x ^ 2 + y ^ 2 - t ^ 2)) ^ 2) by ring. rewrite <- (Rsqr_pow2 (sqrt _)), Rsqr_sqrt by lra. ring. }
    exists h. rewrite A, B, E1, E2. split; [reflexivity|]. unfold scaled. f_equal. f_equal. ring.
Qed.

Lemma track_dec_ok : forall a r, track_means a = Some r -> track_dec a = Ok r.
Proof. intros [h m s|n d m s|r|r|x] r0 E; unfold track_dec, track_means, degrees in *; inversion E; f_equal; field. Qed.
Lemma track_dec_err : forall a, track_means a = None -> track_dec a = Raise TypeError.
Proof. intros [h m s|n d m s|r|r|x] E; inversion E; reflexivity. Qed.
Lemma track_means_dec : forall a r, track_means a = Some r -> dec_means a = Some r.
Proof. intros [h m s|n d m s|r|r|x] r0 E; inversion E; reflexivity. Qed.
Lemma compute_track_ok : forall light l dec freq lat bl d, asks l false bl -> track_means dec = Some d ->
  compute_uv_track light l dec freq lat = Ok (map (fun p => track_of light d freq (tx lat (sep (fst p) (snd p)), east (sep (fst p) (snd p)), inner (sep (fst p) (snd p)) (pole lat))) bl).
Proof.
  intros light l dec freq lat bl d H D. unfold compute_uv_track. rewrite (pick_asks _ _ _ H). unfold bind at 1. rewrite (track_dec_ok _ _ D). unfold bind at 1.
  rewrite map_map, <- collect_oks. f_equal. apply map_ext. intros [a b]. unfold bind. cbn [fst snd]. rewrite trans1_vec. reflexivity.
Qed.
