(** What the coordinates of a baseline mean: its components along three axes fixed by the source and the pole. *)
From Coq Require Import Reals List.
From Verif Require Import LibList S_Base M_Uvw.
Import ListNotations.
Open Scope R_scope.

(** A vector by its components towards east, north and up. *)
Record vec := V { east : R; north : R; up : R }.
Definition inner (a b : vec) : R := east a * east b + north a * north b + up a * up b.
Definition cross (a b : vec) : vec :=
  V (north a * up b - up a * north b) (up a * east b - east a * up b) (east a * north b - north a * east b).

(** Where the celestial pole is for an observer at latitude [lat]: in the north, at the height of the latitude. *)
Definition pole (lat : R) : vec := V 0 (cos lat) (sin lat).
(** Where a source is that stands [ha] west of the meridian at declination [dec] (the textbook formulas for
    altitude and azimuth). *)
Definition source (lat ha dec : R) : vec :=
  V (- (cos dec * sin ha)) (sin dec * cos lat - cos dec * cos ha * sin lat) (sin dec * sin lat + cos dec * cos ha * cos lat).
(** The axes of the uv plane: [w] towards the source, [u] across [w] and the pole, towards the east,
    [v] across both, on the side of the pole; all of length one and right-handed. *)
Definition uvw_axes (lat ha dec : R) (u v w : vec) : Prop :=
  w = source lat ha dec /\ inner u u = 1 /\ inner v v = 1 /\ inner w w = 1 /\
  inner u v = 0 /\ inner u w = 0 /\ inner v w = 0 /\ cross u v = w /\
  inner u (pole lat) = 0 /\ inner v (pole lat) = cos dec.
(** What is meant by hours and degrees *)
Definition hours (h : R) : R := h * (2 * PI) / 24.
Definition degrees (d : R) : R := d * (2 * PI) / 360.
(** The distance of a separation from the line towards the pole *)
Definition from_axis (lat : R) (d : vec) : R := sqrt (inner d d - inner d (pole lat) ^ 2).

(** From one antenna to another: the separation the coordinates are of *)
Definition sep (a b : ant) : vec := V (a_x a - a_x b) (a_y a - a_y b) (a_z a - a_z b).

(** The baselines a first argument asks for: all pairs of a list of antennas, or the pairs given *)
Definition asks (l : list item) (auto : bool) (bl : list (ant * ant)) : Prop :=
  (exists d ants idx, ants <> [] /\ l = map IAnt ants /\ all_pairs auto (zlen ants) idx /\
     bl = map (fun p => (znth d (fst p) ants, znth d (snd p) ants)) idx) \/
  (bl <> [] /\ l = map (fun p => ISeq [EAnt (fst p); EAnt (snd p)]) bl).

(** The angles in radians *)
Definition ha_means (a : angle) : R :=
  match a with
  | AHms h m s => hours (h + m / 60 + s / 3600)
  | ADms neg d m s => degrees (if neg then - (d + m / 60 + s / 3600) else d + m / 60 + s / 3600)
  | AAstro r | AEphem r => r
  | ANum x => hours x
  end.
Definition dec_means (a : angle) : option R :=
  match a with
  | AHms _ _ _ => None
  | ADms neg d m s => Some (degrees (if neg then - (d + m / 60 + s / 3600) else d + m / 60 + s / 3600))
  | AAstro r | AEphem r => Some r
  | ANum x => Some (degrees x)
  end.
(** The declinations compute_uv_track() takes *)
Definition track_means (a : angle) : option R :=
  match a with AHms _ _ _ | ADms _ _ _ _ => None | AAstro r | AEphem r => Some r | ANum x => Some (degrees x) end.
