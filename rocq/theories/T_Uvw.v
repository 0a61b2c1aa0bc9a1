(** Property theorems (generated from P_UvwT.v by tools/gen_theorems.py). *)
From Coq Require Import List ZArith Reals Bool Lia Lra Floats.SpecFloat.
From Verif Require Import M_Py M_Base S_Base P_Base M_Uvw S_Uvw P_Uvw P_UvwA P_UvwB P_UvwT.
Import ListNotations.
Open Scope R_scope.

(** C111: for every list of antennas or of pairs, hour angle, declination, latitude and frequencies, compute_uvw() gives an array of
    baselines, three, and the shape of the frequencies: each baseline's components, in wavelengths, along the axes of the uv plane -
    w towards the source, u to the east across the pole, v to the side of the pole. *)
Theorem C111_uvw : forall light l HA dec freq lat auto bl d shape fs, asks l auto bl -> dec_means dec = Some d ->
  (freq = FArr shape fs /\ shape <> [] \/ freq = FList fs /\ shape = [zlen fs] \/ exists f, freq = FNum f /\ shape = [1%Z] /\ fs = [f]) ->
  exists u v w, uvw_axes lat (ha_means HA) d u v w /\
  compute_uvw light l HA dec freq lat auto = Ok (zlen bl :: 3%Z :: shape,
    map (fun p => let along e := map (fun f => inner e (sep (fst p) (snd p)) * f / light) fs in (along u, along v, along w)) bl).
Proof. exact C111_uvw_proof. Qed.
Print Assumptions C111_uvw.

(** Three antennas on the equator, a source at the celestial equator two hours west: u of the second baseline. *)
Example C111_uvw_example : asks [IAnt a0; IAnt a1; IAnt a2] false [(a0, a1); (a0, a2); (a1, a2)] /\
  dec_means (ANum 0) = Some 0 /\ ha_means (ANum 2) = PI / 6 /\
  inner (ax_u 0 (PI / 6) 0) (sep a0 a2) = -6 /\
  compute_uvw 1 [IAnt a0] (ANum 0) (ANum 0) (FNum 1) 0 false = Ok ([0; 3; 1]%Z, []).
Proof. exact C111_uvw_example_proof. Qed.

(** C111: the axes are fixed by what is said of them, unless the source is at a pole. *)
Theorem C111_axes_unique : forall lat ha dec u v w u' v' w', cos dec <> 0 -> uvw_axes lat ha dec u v w -> uvw_axes lat ha dec u' v' w' -> u = u' /\ v = v' /\ w = w'.
Proof. exact C111_axes_unique_proof. Qed.
Print Assumptions C111_axes_unique.

Example C111_axes_unique_example : cos (degrees 0) <> 0.
Proof. exact C111_axes_unique_example_proof. Qed.

(** C111: the coordinates of a closed triangle add up to zero, those of a swapped pair change sign, and their length is that of the
    baseline in wavelengths, at every hour angle, declination, latitude and frequency. *)
Theorem C111_closure : forall light a b c HA dec lat f, dec_means dec <> None -> exists u1 v1 w1 u2 v2 w2 u3 v3 w3,
  compute_uvw light [ISeq [EAnt a; EAnt b]; ISeq [EAnt b; EAnt c]; ISeq [EAnt c; EAnt a]; ISeq [EAnt b; EAnt a]] HA dec (FNum f) lat false =
  Ok ([4; 3; 1]%Z, [([u1], [v1], [w1]); ([u2], [v2], [w2]); ([u3], [v3], [w3]); ([- u1], [- v1], [- w1])]) /\
  u1 + u2 + u3 = 0 /\ v1 + v2 + v3 = 0 /\ w1 + w2 + w3 = 0 /\
  u1 ^ 2 + v1 ^ 2 + w1 ^ 2 = ((a_x a - a_x b) ^ 2 + (a_y a - a_y b) ^ 2 + (a_z a - a_z b) ^ 2) * (f / light) ^ 2.
Proof. exact C111_closure_proof. Qed.
Print Assumptions C111_closure.

Example C111_closure_example : dec_means (ADms true 12 30 0) = Some (degrees (- (25 / 2))) /\ dec_means (ADms true 12 30 0) <> None.
Proof. exact C111_closure_example_proof. Qed.

(** C111: anything that is not a list of antennas or of pairs of antennas, a declination in hours, and an array of frequencies without
    dimensions are refused; nothing else is. *)
Theorem C111_refused : forall light l HA dec freq lat auto,
  (exists r, compute_uvw light l HA dec freq lat auto = Ok r) <->
  (exists bl, asks l auto bl) /\ dec_means dec <> None /\ (forall x, freq <> FArr [] x).
Proof. exact C111_refused_proof. Qed.
Print Assumptions C111_refused.

Example C111_refused_example : compute_uvw 1 [] (ANum 0) (ANum 0) (FNum 1) 0 false = Raise IndexError /\
  compute_uvw 1 [IAnt a0; IOther] (ANum 0) (ANum 0) (FNum 1) 0 false = Raise AttributeError /\
  compute_uvw 1 [ISeq [EAnt a0]] (ANum 0) (ANum 0) (FNum 1) 0 false = Raise TypeError /\
  compute_uvw 1 [] (ANum 0) (ANum 0) (FArr [] [1]) 0 false = Raise RuntimeError.
Proof. exact C111_refused_example_proof. Qed.

(** C112: the track of each baseline has 512 points; each of them is the (u, v) that compute_uvw() gives for that baseline at some hour
    angle; u goes in equal steps from the one end to the other and back. *)
Theorem C112_track : forall light l dec freq lat bl d, asks l false bl -> track_means dec = Some d ->
  exists tracks, compute_uv_track light l dec freq lat = Ok tracks /\ length tracks = length bl /\
  forall k a b, nth_error bl k = Some (a, b) -> exists us vs, nth_error tracks k = Some (us, vs) /\ length us = 512%nat /\ length vs = 512%nat /\
    (forall i, (i < 512)%nat -> exists HA w, compute_uvw light [ISeq [EAnt a; EAnt b]] (ANum HA) dec (FNum freq) lat false = Ok ([1; 3; 1]%Z, [([nth i us 0], [nth i vs 0], w)])) /\
    (forall i, (i < 256)%nat -> nth i us 0 = from_axis lat (sep a b) * (2 * INR i / 255 - 1) * freq / light /\ nth (511 - i) us 0 = nth i us 0).
Proof. exact C112_track_proof. Qed.
Print Assumptions C112_track.

Example C112_track_example : asks [IAnt a0; IAnt a1; IAnt a2] false [(a0, a1); (a0, a2); (a1, a2)] /\ track_means (ANum 90) = Some (degrees 90) /\
  from_axis 0 (sep a0 a2) = 12.
Proof. exact C112_track_example_proof. Qed.

(** C112: and at every hour angle compute_uvw() gives a point of the ellipse on which the points of the track lie. *)
Theorem C112_ellipse : forall light a b dec freq lat d HA, light <> 0 -> track_means dec = Some d ->
  exists u v w, compute_uvw light [ISeq [EAnt a; EAnt b]] HA dec (FNum freq) lat false = Ok ([1; 3; 1]%Z, [([u], [v], [w])]) /\
  let r := from_axis lat (sep a b) * freq / light in let z := inner (sep a b) (pole lat) * freq / light in
  (sin d * u) ^ 2 + (v - cos d * z) ^ 2 = (sin d * r) ^ 2.
Proof. exact C112_ellipse_proof. Qed.
Print Assumptions C112_ellipse.

Example C112_ellipse_example : (299792458 <> 0) /\ track_means (AEphem (PI / 4)) = Some (PI / 4).
Proof. exact C112_ellipse_example_proof. Qed.

(** C112: what is not a list of antennas or of pairs is refused. *)
Theorem C112_refused : forall light l dec freq lat,
  (exists r, compute_uv_track light l dec freq lat = Ok r) <-> (exists bl, asks l false bl) /\ track_means dec <> None.
Proof. exact C112_refused_proof. Qed.
Print Assumptions C112_refused.

Example C112_refused_example : compute_uv_track 1 [] (ANum 0) 1 0 = Raise IndexError /\ compute_uv_track 1 [ISeq [EAnt a0; EAnt a1]; IOther] (ANum 0) 1 0 = Raise TypeError.
Proof. exact C112_refused_example_proof. Qed.

(** C112 refuted: a declination in degrees, minutes and seconds, which compute_uvw() takes, is a TypeError. *)
Theorem C112_dms_refuted : forall light a b n dd m s freq lat, compute_uv_track light [ISeq [EAnt a; EAnt b]] (ADms n dd m s) freq lat = Raise TypeError /\
  exists r, compute_uvw light [ISeq [EAnt a; EAnt b]] (ANum 0) (ADms n dd m s) (FNum freq) lat false = Ok r.
Proof. exact C112_dms_refuted_proof. Qed.
Print Assumptions C112_dms_refuted.

(** C112 refuted: in double precision the square of the rounded root can exceed what it is the root of; then the ends of the track
    are not numbers.  It happens for a separation of one metre both ways. *)
Theorem C112_ends_refuted : track_first_root (d_int 1) (d_int 1) = S754_nan /\ track_first_root (d_int 3) (d_int 4) = S754_zero false.
Proof. exact C112_ends_refuted_proof. Qed.
Print Assumptions C112_ends_refuted.
