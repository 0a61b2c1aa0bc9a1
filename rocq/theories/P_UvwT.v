(** Theorems about compute_uvw and compute_uv_track (lsl/correlator/uvutils.py). *)
From Coq Require Import List ZArith Reals Bool Lia Lra Floats.SpecFloat.
From Verif Require Import M_Py M_Base S_Base P_Base M_Uvw S_Uvw P_Uvw P_UvwA P_UvwB.
Import ListNotations.
Open Scope R_scope.

(** C111: for every list of antennas or of pairs, hour angle, declination, latitude and frequencies, compute_uvw() gives an array of
    baselines, three, and the shape of the frequencies: each baseline's components, in wavelengths, along the axes of the uv plane -
    w towards the source, u to the east across the pole, v to the side of the pole. *)
Lemma C111_uvw_proof : forall light l HA dec freq lat auto bl d shape fs, asks l auto bl -> dec_means dec = Some d ->
  (freq = FArr shape fs /\ shape <> [] \/ freq = FList fs /\ shape = [zlen fs] \/ exists f, freq = FNum f /\ shape = [1%Z] /\ fs = [f]) ->
  exists u v w, uvw_axes lat (ha_means HA) d u v w /\
  compute_uvw light l HA dec freq lat auto = Ok (zlen bl :: 3%Z :: shape,
    map (fun p => let along e := map (fun f => inner e (sep (fst p) (snd p)) * f / light) fs in (along u, along v, along w)) bl).
Proof.
  intros light l HA dec freq lat auto bl d shape fs H D F. exists (ax_u lat (ha_means HA) d), (ax_v lat (ha_means HA) d), (source lat (ha_means HA) d).
  split; [apply axes_ok|].
  assert (freq_array freq = Ok (shape, fs)) as FA.
  { destruct F as [[-> N]|[[-> ->]|(f & -> & -> & ->)]]; try reflexivity. destruct shape; [contradiction|reflexivity]. }
  rewrite (compute_uvw_ok _ _ _ _ _ _ _ _ _ _ _ H D FA). do 2 f_equal. unfold uvw_rows. apply map_ext. intros [a b]. reflexivity.
Qed.
Definition a0 := mkAnt 0 0 0.
Definition a1 := mkAnt 3 4 0.
Definition a2 := mkAnt 0 0 12.
Lemma ex_asks : asks [IAnt a0; IAnt a1; IAnt a2] false [(a0, a1); (a0, a2); (a1, a2)].
Proof.
  left. exists a0, [a0; a1; a2], (pairs 1 3). split; [discriminate|]. split; [reflexivity|]. split; [exact (pairs_all false 3)|reflexivity].
Qed.
(** Three antennas on the equator, a source at the celestial equator two hours west: u of the second baseline. *)
Lemma C111_uvw_example_proof : asks [IAnt a0; IAnt a1; IAnt a2] false [(a0, a1); (a0, a2); (a1, a2)] /\
  dec_means (ANum 0) = Some 0 /\ ha_means (ANum 2) = PI / 6 /\
  inner (ax_u 0 (PI / 6) 0) (sep a0 a2) = -6 /\
  compute_uvw 1 [IAnt a0] (ANum 0) (ANum 0) (FNum 1) 0 false = Ok ([0; 3; 1]%Z, []).
Proof.
  split; [exact ex_asks|]. split; [cbn; unfold degrees; f_equal; field|]. split; [cbn; unfold hours; field|]. split.
  - unfold inner, ax_u, sep, a0, a2. cbn [east north up a_x a_y a_z]. rewrite sin_0, cos_0, sin_PI6. field.
  - rewrite (compute_uvw_ok 1 [IAnt a0] (ANum 0) (ANum 0) (FNum 1) 0 false [] (degrees 0) [1%Z] [1]); try reflexivity.
    left. exists a0, [a0], (pairs 1 1). split; [discriminate|]. split; [reflexivity|]. split; [exact (pairs_all false 1)|reflexivity].
Qed.
(** C111: the axes are fixed by what is said of them, unless the source is at a pole. *)
Lemma C111_axes_unique_proof : forall lat ha dec u v w u' v' w', cos dec <> 0 -> uvw_axes lat ha dec u v w -> uvw_axes lat ha dec u' v' w' -> u = u' /\ v = v' /\ w = w'.
Proof. exact axes_unique. Qed.
Lemma C111_axes_unique_example_proof : cos (degrees 0) <> 0.
Proof. unfold degrees. replace (0 * (2 * PI) / 360) with 0 by field. rewrite cos_0. lra. Qed.
(** C111: the coordinates of a closed triangle add up to zero, those of a swapped pair change sign, and their length is that of the
    baseline in wavelengths, at every hour angle, declination, latitude and frequency. *)
Lemma C111_closure_proof : forall light a b c HA dec lat f, dec_means dec <> None -> exists u1 v1 w1 u2 v2 w2 u3 v3 w3,
  compute_uvw light [ISeq [EAnt a; EAnt b]; ISeq [EAnt b; EAnt c]; ISeq [EAnt c; EAnt a]; ISeq [EAnt b; EAnt a]] HA dec (FNum f) lat false =
  Ok ([4; 3; 1]%Z, [([u1], [v1], [w1]); ([u2], [v2], [w2]); ([u3], [v3], [w3]); ([- u1], [- v1], [- w1])]) /\
  u1 + u2 + u3 = 0 /\ v1 + v2 + v3 = 0 /\ w1 + w2 + w3 = 0 /\
  u1 ^ 2 + v1 ^ 2 + w1 ^ 2 = ((a_x a - a_x b) ^ 2 + (a_y a - a_y b) ^ 2 + (a_z a - a_z b) ^ 2) * (f / light) ^ 2.
Proof.
  intros light a b c HA dec lat f D. destruct (dec_means dec) as [d|] eqn:E; [|contradiction]. set (ha := ha_means HA).
  set (u := ax_u lat ha d). set (v := ax_v lat ha d). set (w := source lat ha d). unfold Rdiv.
  exists (inner u (sep a b) * f / light), (inner v (sep a b) * f / light), (inner w (sep a b) * f / light),
         (inner u (sep b c) * f / light), (inner v (sep b c) * f / light), (inner w (sep b c) * f / light),
         (inner u (sep c a) * f / light), (inner v (sep c a) * f / light), (inner w (sep c a) * f / light).
  split; [|split; [|split; [|split]]].
  - rewrite (compute_uvw_ok light _ HA dec (FNum f) lat false [(a, b); (b, c); (c, a); (b, a)] d [1%Z] [f]); auto.
    + unfold uvw_rows. cbn [map]. fold ha u v w.
      assert (N : forall e, inner e (sep b a) * f / light = - (inner e (sep a b) * f / light)) by (intro e; unfold inner, sep, Rdiv; cbn [east north up]; ring).
      rewrite !N. reflexivity.
    + right. split; [discriminate|reflexivity].
  - unfold inner, sep, Rdiv. cbn [east north up]. ring.
  - unfold inner, sep, Rdiv. cbn [east north up]. ring.
  - unfold inner, sep, Rdiv. cbn [east north up]. ring.
  - unfold Rdiv. replace ((inner u (sep a b) * f * / light) ^ 2 + (inner v (sep a b) * f * / light) ^ 2 + (inner w (sep a b) * f * / light) ^ 2)
      with ((inner u (sep a b) ^ 2 + inner v (sep a b) ^ 2 + inner w (sep a b) ^ 2) * (f * / light) ^ 2) by ring.
    f_equal. unfold u, v, w. rewrite axes_length. unfold inner, sep. cbn [east north up]. ring.
Qed.
Lemma C111_closure_example_proof : dec_means (ADms true 12 30 0) = Some (degrees (- (25 / 2))) /\ dec_means (ADms true 12 30 0) <> None.
Proof. split; [cbn; f_equal; f_equal; field|discriminate]. Qed.
(** C111: anything that is not a list of antennas or of pairs of antennas, a declination in hours, and an array of frequencies without
    dimensions are refused; nothing else is. *)
Lemma C111_refused_proof : forall light l HA dec freq lat auto,
  (exists r, compute_uvw light l HA dec freq lat auto = Ok r) <->
  (exists bl, asks l auto bl) /\ dec_means dec <> None /\ (forall x, freq <> FArr [] x).
Proof.
  intros light l HA dec freq lat auto. split.
  - intros (r & H). apply compute_inv in H. destruct H as (A & (d & D) & F). split; [exact A|]. split; [rewrite D; discriminate|exact F].
  - intros ((bl & A) & D & F). destruct (dec_means dec) as [d|] eqn:E; [|contradiction].
    assert (exists shape fs, freq_array freq = Ok (shape, fs)) as (shape & fs & FA).
    { destruct freq as [f|fl|[|s sh] fl]; cbn; eauto. exfalso. apply (F fl). reflexivity. }
    eexists. apply (compute_uvw_ok _ _ _ _ _ _ _ _ _ _ _ A E FA).
Qed.
Lemma C111_refused_example_proof : compute_uvw 1 [] (ANum 0) (ANum 0) (FNum 1) 0 false = Raise IndexError /\
  compute_uvw 1 [IAnt a0; IOther] (ANum 0) (ANum 0) (FNum 1) 0 false = Raise AttributeError /\
  compute_uvw 1 [ISeq [EAnt a0]] (ANum 0) (ANum 0) (FNum 1) 0 false = Raise TypeError /\
  compute_uvw 1 [] (ANum 0) (ANum 0) (FArr [] [1]) 0 false = Raise RuntimeError.
Proof. repeat split; reflexivity. Qed.

(** C112: the track of each baseline has 512 points; each of them is the (u, v) that compute_uvw() gives for that baseline at some hour
    angle; u goes in equal steps from the one end to the other and back. *)
Lemma C112_track_proof : forall light l dec freq lat bl d, asks l false bl -> track_means dec = Some d ->
  exists tracks, compute_uv_track light l dec freq lat = Ok tracks /\ length tracks = length bl /\
  forall k a b, nth_error bl k = Some (a, b) -> exists us vs, nth_error tracks k = Some (us, vs) /\ length us = 512%nat /\ length vs = 512%nat /\
    (forall i, (i < 512)%nat -> exists HA w, compute_uvw light [ISeq [EAnt a; EAnt b]] (ANum HA) dec (FNum freq) lat false = Ok ([1; 3; 1]%Z, [([nth i us 0], [nth i vs 0], w)])) /\
    (forall i, (i < 256)%nat -> nth i us 0 = from_axis lat (sep a b) * (2 * INR i / 255 - 1) * freq / light /\ nth (511 - i) us 0 = nth i us 0).
Proof.
  intros light l dec freq lat bl d H D. eexists. split; [apply (compute_track_ok _ _ _ _ _ _ _ H D)|]. split; [apply map_length|].
  intros k a b N. exists (fst (track_of light d freq (tx lat (sep a b), east (sep a b), inner (sep a b) (pole lat)))), (snd (track_of light d freq (tx lat (sep a b), east (sep a b), inner (sep a b) (pole lat)))).
  split; [rewrite nth_error_map, N; cbn [option_map fst snd]; rewrite <- surjective_pairing; reflexivity|].
  destruct (track_lengths light d freq (tx lat (sep a b), east (sep a b), inner (sep a b) (pole lat))) as [L1 L2]. split; [exact L1|]. split; [exact L2|]. split.
  - intros i Hi. destruct (track_reached light d freq (tx lat (sep a b)) (east (sep a b)) (inner (sep a b) (pole lat)) i Hi) as (h & E1 & E2).
    destruct (hours_of h) as (x & Hx). exists x. eexists.
    rewrite (compute_uvw_ok light _ (ANum x) dec (FNum freq) lat false [(a, b)] d [1%Z] [freq]); [|right; split; [discriminate|reflexivity]|apply track_means_dec, D|reflexivity].
    unfold uvw_rows. cbn [map]. rewrite Hx, E1, E2, u_eq, v_eq. unfold scaled. reflexivity.
  - intros i Hi. destruct (track_first light d freq (tx lat (sep a b)) (east (sep a b)) (inner (sep a b) (pole lat)) i Hi) as (A & _ & C & _).
    rewrite A, C. split; [|reflexivity]. rewrite from_axis_eq. unfold scaled. f_equal. f_equal. field.
Qed.
Lemma C112_track_example_proof : asks [IAnt a0; IAnt a1; IAnt a2] false [(a0, a1); (a0, a2); (a1, a2)] /\ track_means (ANum 90) = Some (degrees 90) /\
  from_axis 0 (sep a0 a2) = 12.
Proof.
  split; [exact ex_asks|]. split; [reflexivity|]. unfold from_axis, inner, pole, sep, a0, a2. cbn [east north up a_x a_y a_z]. rewrite sin_0, cos_0.
  replace _ with (sqrt (12 * 12)); [apply sqrt_square; lra|]. f_equal. ring.
Qed.
(** C112: and at every hour angle compute_uvw() gives a point of the ellipse on which the points of the track lie. *)
Lemma C112_ellipse_proof : forall light a b dec freq lat d HA, light <> 0 -> track_means dec = Some d ->
  exists u v w, compute_uvw light [ISeq [EAnt a; EAnt b]] HA dec (FNum freq) lat false = Ok ([1; 3; 1]%Z, [([u], [v], [w])]) /\
  let r := from_axis lat (sep a b) * freq / light in let z := inner (sep a b) (pole lat) * freq / light in
  (sin d * u) ^ 2 + (v - cos d * z) ^ 2 = (sin d * r) ^ 2.
Proof.
  intros light a b dec freq lat d HA N D. set (h := ha_means HA).
  exists (inner (ax_u lat h d) (sep a b) * freq / light), (inner (ax_v lat h d) (sep a b) * freq / light), (inner (source lat h d) (sep a b) * freq / light).
  split.
  - rewrite (compute_uvw_ok light _ HA dec (FNum freq) lat false [(a, b)] d [1%Z] [freq]); [reflexivity|right; split; [discriminate|reflexivity]|apply track_means_dec, D|reflexivity].
  - cbv zeta. rewrite u_eq, v_eq. assert (R2 : from_axis lat (sep a b) ^ 2 = tx lat (sep a b) ^ 2 + east (sep a b) ^ 2).
    { rewrite <- from_axis_eq. rewrite <- (Rsqr_pow2 (sqrt _)), Rsqr_sqrt; [reflexivity|]. nra. }
    set (x := tx lat (sep a b)) in *. set (y := east (sep a b)) in *. set (z := inner (sep a b) (pole lat)). set (r := from_axis lat (sep a b)) in *.
    assert (T := sin2_cos2 h). unfold Rsqr in T.
    replace ((sin d * (r * freq / light)) ^ 2) with (sin d ^ 2 * r ^ 2 * (freq / light) ^ 2) by (field; exact N). rewrite R2.
    replace (_ + _) with (sin d ^ 2 * (x ^ 2 + y ^ 2) * (sin h * sin h + cos h * cos h) * (freq / light) ^ 2) by (field; exact N). rewrite T. ring.
Qed.
Lemma C112_ellipse_example_proof : (299792458 <> 0) /\ track_means (AEphem (PI / 4)) = Some (PI / 4).
Proof. split; [lra|reflexivity]. Qed.
(** C112: what is not a list of antennas or of pairs is refused. *)
Lemma C112_refused_proof : forall light l dec freq lat,
  (exists r, compute_uv_track light l dec freq lat = Ok r) <-> (exists bl, asks l false bl) /\ track_means dec <> None.
Proof.
  intros light l dec freq lat. split.
  - intros (r & H). apply track_inv in H. destruct H as (A & (d & D)). split; [exact A|rewrite D; discriminate].
  - intros ((bl & A) & D). destruct (track_means dec) as [d|] eqn:E; [|contradiction]. eexists. apply (compute_track_ok _ _ _ _ _ _ _ A E).
Qed.
Lemma C112_refused_example_proof : compute_uv_track 1 [] (ANum 0) 1 0 = Raise IndexError /\ compute_uv_track 1 [ISeq [EAnt a0; EAnt a1]; IOther] (ANum 0) 1 0 = Raise TypeError.
Proof. repeat split; reflexivity. Qed.
(** C112 refuted: a declination in degrees, minutes and seconds, which compute_uvw() takes, is a TypeError. *)
Lemma C112_dms_refuted_proof : forall light a b n dd m s freq lat, compute_uv_track light [ISeq [EAnt a; EAnt b]] (ADms n dd m s) freq lat = Raise TypeError /\
  exists r, compute_uvw light [ISeq [EAnt a; EAnt b]] (ANum 0) (ADms n dd m s) (FNum freq) lat false = Ok r.
Proof.
  intros. split; [reflexivity|]. eexists. eapply (compute_uvw_ok light _ (ANum 0) _ (FNum freq) lat false [(a, b)] _ [1%Z] [freq]); [right; split; [discriminate|reflexivity]|reflexivity|reflexivity].
Qed.
(** C112 refuted: in double precision the square of the rounded root can exceed what it is the root of; then the ends of the track
    are not numbers.  It happens for a separation of one metre both ways. *)
Lemma C112_ends_refuted_proof : track_first_root (d_int 1) (d_int 1) = S754_nan /\ track_first_root (d_int 3) (d_int 4) = S754_zero false.
Proof. split; vm_compute; reflexivity. Qed.
