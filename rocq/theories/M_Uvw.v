(** Model of compute_uvw and compute_uv_track (correlator/uvutils.py) over the real numbers, and of one point of
    a track in double precision.  Arrays are lists; an array with several dimensions is its shape and its elements
    in order. *)
From Coq Require Import List ZArith Reals Bool.
From Coq Require Import Floats.SpecFloat.
From Verif Require Import M_Py M_Base.
Import ListNotations.
Open Scope R_scope.

(** A stand's position in metres: east, north, up (common/stations.py 536-558; only the position is used here). *)
Record ant := mkAnt { a_x : R; a_y : R; a_z : R }.
(** What may stand in the first argument: an Antenna, a tuple or list, or anything else that cannot be unpacked. *)
Inductive entry := EAnt (a : ant) | EOther.
Inductive item := IAnt (a : ant) | ISeq (l : list entry) | IOther.
(** Angles: astro.hms, astro.dms, an Angle of astropy, an ephem.Angle (both in radians), or a number. *)
Inductive angle :=
| AHms (h m s : R) | ADms (neg : bool) (d m s : R) | AAstro (rad : R) | AEphem (rad : R) | ANum (x : R).
(** Frequencies: a number, a list of numbers, or an ndarray with its shape and elements. *)
Inductive freqs := FNum (f : R) | FList (l : list R) | FArr (shape : list Z) (l : list R).

(** astro.hms.to_rad, astro.dms.to_rad (astro.py 1725-1762, 1812-1836) *)
Definition deg_to_rad (d : R) : R := d * PI / 180.
Definition hms_to_rad (h m s : R) : R := deg_to_rad ((h + m / 60 + s / 3600) * 15).
Definition dms_to_rad (neg : bool) (d m s : R) : R :=
  let v := d + m / 60 + s / 3600 in deg_to_rad (if neg then v * -1 else v).

(** The hour angle in radians (uvutils.py 179-186) *)
Definition ha_rad (a : angle) : res R :=
  match a with
  | AHms h m s => Ok (hms_to_rad h m s)
  | ADms n d m s => Ok (dms_to_rad n d m s)
  | AAstro r => Ok r
  | AEphem r => Ok (r * 1)
  | ANum x => Ok (x * 15 * PI / 180)
  end.
(** The declination in radians (uvutils.py 187-194); an astro.hms cannot be multiplied with a number. *)
Definition dec_rad (a : angle) : res R :=
  match a with
  | ADms n d m s => Ok (dms_to_rad n d m s)
  | AAstro r => Ok r
  | AEphem r => Ok (r * 1)
  | AHms _ _ _ => Raise TypeError
  | ANum x => Ok (x * PI / 180)
  end.
(** The declination of compute_uv_track (uvutils.py 265-270); neither astro.hms nor astro.dms can be multiplied. *)
Definition track_dec (a : angle) : res R :=
  match a with
  | AEphem r => Ok (r * 1)
  | AAstro r => Ok r
  | AHms _ _ _ | ADms _ _ _ _ => Raise TypeError
  | ANum x => Ok (x * PI / 180)
  end.

Definition row := (R * R * R)%type.
Definition dot (a b : row) : R := let '(a1, a2, a3) := a in let '(b1, b2, b3) := b in a1 * b1 + a2 * b2 + a3 * b3.
Definition col (k : nat) (m : row * row * row) : row :=
  let '((a1, a2, a3), (b1, b2, b3), (c1, c2, c3)) := m in
  match k with O => (a1, b1, c1) | S O => (a2, b2, c2) | _ => (a3, b3, c3) end.
(** trans2 @ trans1, np.dot(matrix, vector) *)
Definition mat_row (r : row) (m : row * row * row) : row := (dot r (col 0 m), dot r (col 1 m), dot r (col 2 m)).
Definition mat_mul (m n : row * row * row) : row * row * row :=
  let '(r1, r2, r3) := m in (mat_row r1 n, mat_row r2 n, mat_row r3 n).
Definition mat_vec (m : row * row * row) (v : row) : row := let '(r1, r2, r3) := m in (dot r1 v, dot r2 v, dot r3 v).

(** The matrices (uvutils.py 201-207, 277-279) *)
Definition trans1 (lat : R) : row * row * row := ((0, - sin lat, cos lat), (1, 0, 0), (0, cos lat, sin lat)).
Definition trans2 (ha dec : R) : row * row * row :=
  ((sin ha, cos ha, 0), (- sin dec * cos ha, sin dec * sin ha, cos dec), (cos dec * cos ha, - cos dec * sin ha, sin dec)).

(** Stand.__sub__ for two stands (common/stations.py 619-630) *)
Definition stand_sub (a b : ant) : row := (a_x a - a_x b, a_y a - a_y b, a_z a - a_z b).

(** The choice of baselines (uvutils.py 164-172, 251-259): only the first element is looked at. *)
Definition pick_baselines (l : list item) (auto : bool) : res (list (res (ant * ant))) :=
  let attr (i : item) : res ant := match i with IAnt a => Ok a | _ => Raise AttributeError end in
  let attr' (e : entry) : res ant := match e with EAnt a => Ok a | EOther => Raise AttributeError end in
  match l with
  | [] => Raise IndexError
  | IAnt _ :: _ =>
      bind (get_baselines l None auto) (fun p =>
      Ok (map (fun xy => bind (attr (fst xy)) (fun x => bind (attr (snd xy)) (fun y => Ok (x, y)))) p))
  | ISeq [] :: _ => Raise IndexError
  | ISeq (EAnt _ :: r) :: _ =>
      if Nat.eqb (length r) 1 then
        Ok (map (fun i => match i with
                          | ISeq [e; f] => bind (attr' e) (fun x => bind (attr' f) (fun y => Ok (x, y)))
                          | ISeq _ => Raise ValueError
                          | _ => Raise TypeError
                          end) l)
      else Raise TypeError
  | ISeq (EOther :: _) :: _ => Raise TypeError
  | IOther :: _ => Raise ValueError
  end.

(** The frequencies and their shape (uvutils.py 158-162).  A list of lists is not modelled. *)
Definition freq_array (f : freqs) : res (list Z * list R) :=
  match f with
  | FArr [] _ => Raise RuntimeError
  | FArr s l => Ok (s, l)
  | FNum x => Ok ([1%Z], [x])
  | FList l => Ok ([zlen l], l)
  end.

(** compute_uvw (uvutils.py 127-221).  [lat] is the latitude of the site in radians, [light] the speed of light.
    The array is given by its shape and, for each baseline, the lists of u, v and w over the frequencies. *)
Definition compute_uvw (light : R) (l : list item) (HA dec : angle) (freq : freqs) (lat : R) (auto : bool)
  : res (list Z * list (list R * list R * list R)) :=
  bind (freq_array freq) (fun '(shape, fs) =>
  bind (pick_baselines l auto) (fun bl =>
  bind (ha_rad HA) (fun ha2 =>
  bind (dec_rad dec) (fun dec2 =>
  let trans := mat_mul (trans2 ha2 dec2) (trans1 lat) in
  bind (collect (map (fun r => bind r (fun '(a1, a2) =>
    let '(x, y, z) := mat_vec trans (stand_sub a1 a2) in
    let over (c : R) := map (fun f => c * f / light) fs in
    Ok (over x, over y, over z))) bl)) (fun rows =>
  Ok (zlen bl :: 3%Z :: shape, rows)))))).

(** np.linspace(a, b, num=256) *)
Definition linspace (a b : R) : list R := map (fun k => a + INR k * ((b - a) / 255)) (seq 0 256).

(** One baseline of compute_uv_track (uvutils.py 285-296): the 512 values of u and of v *)
Definition track_of (light dec2 freq : R) (xyz : row) : list R * list R :=
  let '(x, y, z) := xyz in
  let u := linspace (- sqrt (x ^ 2 + y ^ 2)) (sqrt (x ^ 2 + y ^ 2)) in
  let v1 := map (fun t => sqrt (x ^ 2 + y ^ 2 - t ^ 2) * sin dec2 + z * cos dec2) u in
  let v2 := map (fun t => - sqrt (x ^ 2 + y ^ 2 - t ^ 2) * sin dec2 + z * cos dec2) u in
  let scale (c : R) := c * freq / light in
  (map scale u ++ map scale (rev u), map scale v1 ++ map scale (rev v2)).

(** compute_uv_track (uvutils.py 224-299) *)
Definition compute_uv_track (light : R) (l : list item) (dec : angle) (freq lat : R) : res (list (list R * list R)) :=
  bind (pick_baselines l false) (fun bl =>
  bind (track_dec dec) (fun dec2 =>
  collect (map (fun r => bind r (fun '(a1, a2) => Ok (track_of light dec2 freq (mat_vec (trans1 lat) (stand_sub a1 a2))))) bl))).

(** The first u of a track, and what stands under the root there, in double precision (uvutils.py 289-290);
    the roots and products are those of IEEE 754. *)
Definition d_add := SFadd 53 1024.
Definition d_sub := SFsub 53 1024.
Definition d_mul := SFmul 53 1024.
Definition d_sqrt := SFsqrt 53 1024.
Definition d_int (n : Z) : spec_float := binary_normalize 53 1024 n 0 false.
Definition track_first_root (x y : spec_float) : spec_float :=
  let r2 := d_add (d_mul x x) (d_mul y y) in
  let u := SFopp (d_sqrt r2) in
  d_sqrt (d_sub r2 (d_mul u u)).
