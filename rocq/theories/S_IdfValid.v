(** What a valid interferometer run is, and what the stations should be told to do. *)
From Coq Require Import Ascii String.
From Coq Require Import List ZArith Bool QArith.
From Verif Require Import M_Str M_Sdf S_SdfValid M_Idf.
Import ListNotations.
Open Scope Z_scope.

(** Samples per second for the filter codes 1 to 7. *)
Definition samples (filter : Z) : Q :=
  match filter with 1 => 250000 | 2 => 500000 | 3 => 1000000 | 4 => 2000000 | 5 => 4900000 | 6 => 9800000 | 7 => 19600000 | _ => 0 end.
(** What a scan takes at one station: two tunings and two polarizations, frames of 4128 bytes for 4096 samples. *)
Definition station_data (o : scan) : Q := (inject_Z (n_dur o) / 1000 * samples (n_filter o) * 4 * 4128 / 4096)%Q.
(** Two scans do not run at the same time. *)
Definition scans_disjoint (a b : scan) : Prop :=
  let begins o := n_mjd o * 86400000 + n_mpm o in
  begins a + n_dur a <= begins b \/ begins b + n_dur b <= begins a.
Record good_scan (visible : scan -> bool) (alt_visible alt_near : scan -> apc -> bool) (o : scan) : Prop := {
  gs_dur : 1 <= n_dur o;
  gs_f1 : good_tuning (n_f1 o);
  gs_f2 : good_tuning (n_f2 o) \/ n_f2 o = 0;
  gs_filter : 1 <= n_filter o <= 7;
  gs_visible : visible o = true;
  gs_alts : (length (n_alts o) <= 10)%nat;
  gs_each : forall a, In a (n_alts o) -> alt_visible o a = true /\ alt_near o a = true;
  gs_data : fits_drsu (station_data o) }.
Record good_run (visible : scan -> bool) (alt_visible alt_near : scan -> apc -> bool) (r : irun) : Prop := {
  gr_id : 1 <= r_id r <= 9999;
  gr_stations : NoDup (r_stations r);
  gr_scans : Forall (good_scan visible alt_visible alt_near) (r_scans r);
  gr_filter : forall a b, In a (r_scans r) -> In b (r_scans r) -> n_filter a = n_filter b;
  gr_apart : ForallOrdPairs scans_disjoint (r_scans r);
  gr_data : (inject_Z (Z.of_nat (length (r_stations r))) * fold_right Qplus 0 (map station_data (r_scans r)) < inject_Z (Z.of_nat (length (r_stations r)) * 10 * 1024 ^ 4))%Q }.

(** *** The observation of one station for a scan *)
Definition same_time (o : scan) (b : obs) : Prop := o_mjd b = n_mjd o /\ o_mpm b = n_mpm o /\ o_dur b = n_dur o.
Definition same_tunings (o : scan) (b : obs) : Prop :=
  match o_setup b with TRK _ f1 f2 f h => f1 = n_f1 o /\ f2 = n_f2 o /\ f = n_filter o /\ h = false | _ => False end.
(** The position: [years] since 2000 of proper motion in milliseconds of arc per year; a second of right ascension is 15. *)
Definition same_target (sec : Q -> Q) (o : scan) (b : obs) : Prop :=
  match n_to o, o_setup b with
  | ToRaDec ra de pm, TRK (RaDec r d) _ _ _ _ =>
      exists years, (years == (inject_Z (n_mjd o) + inject_Z (n_mpm o) / 86400000 - (515445 # 10)) / (36525 # 100) /\
                     r == ra + years * fst pm * sec de / 54000000 /\ d == de + years * snd pm / 3600000)%Q
  | ToSun, TRK Sun _ _ _ _ => True
  | ToJupiter, TRK Jupiter _ _ _ _ => True
  | _, _ => False
  end.
(** Nothing else is set. *)
Definition nothing_else (b : obs) : Prop :=
  o_bdm b = None /\ o_fee b = repeat (-1, -1) 256 /\ o_flt b = repeat (-1) 256 /\ o_at1 b = repeat (-1) 256 /\ o_at2 b = repeat (-1) 256 /\ o_at3 b = repeat (-1) 256.
(** The remarks are those of the scan, with a note after them exactly for a target with a proper motion. *)
Definition remarked (o : scan) (b : obs) : Prop :=
  exists c note, o_comments b = (c ++ note)%list /\ (n_comments o = Some c \/ n_comments o = None /\ c = []) /\
    (note <> [] <-> exists ra de pm, n_to o = ToRaDec ra de pm /\ ~ (fst pm == 0 /\ snd pm == 0)%Q).
Definition does (sec : Q -> Q) (o : scan) (b : obs) : Prop :=
  o_name b = n_intent o /\ o_target b = n_target o /\ same_time o b /\ same_tunings o b /\ same_target sec o b /\ o_gain b = n_gain o /\ nothing_else b /\ remarked o b.
(** "Name - VL (1 of 3)" *)
Definition titled (name station : str) (i n : Z) : str := (name ++ [32; 45; 32] ++ station ++ [32; 40] ++ dec i ++ [32; 111; 102; 32] ++ dec n ++ [41])%list.
(** The session definition files: one for each station, in their order, with session numbers from [sid] on. *)
Definition told (sec : Q -> Q) (j : iproj) (scans : list scan) (sid : Z) (ps : list project) : Prop :=
  length ps = length (r_stations (i_run j)) /\
  forall k p, nth_error ps k = Some p -> exists s, nth_error (r_stations (i_run j)) k = Some s /\
    j_name p = titled (i_name j) s (Z.of_nat k + 1) (Z.of_nat (length ps)) /\ s_name (j_ses p) = titled (r_name (i_run j)) s (Z.of_nat k + 1) (Z.of_nat (length ps)) /\
    j_pi p = i_pi j /\ j_piname p = i_piname j /\ j_id p = i_id j /\ j_comments p = i_comments j /\
    s_id (j_ses p) = sid + Z.of_nat k /\ s_beam (j_ses p) = 1 /\ s_nchan (j_ses p) = 0 /\ s_nwin (j_ses p) = 0 /\
    Forall2 (does sec) scans (s_obs (j_ses p)).
(** When they can be made: there is a scan, the project office has said something about the run (and about each scan with
    alternate phase centers), tracked scans have remarks and a position that is one after the proper motion. *)
Definition can_track (sec : Q -> Q) (o : scan) : Prop :=
  match n_to o with
  | ToRaDec ra de pm =>
      n_comments o <> None /\
      (let years := (inject_Z (n_mjd o) + inject_Z (n_mpm o) / 86400000 - (515445 # 10)) / (36525 # 100) in
       0 <= ra + years * fst pm * sec de / 54000000 /\ ra + years * fst pm * sec de / 54000000 < 24 /\
       -90 <= de + years * snd pm / 3600000 /\ de + years * snd pm / 3600000 <= 90)%Q
  | _ => True
  end.
Definition can_tell (sec : Q -> Q) (f : office) (scans : list scan) : Prop :=
  scans <> [] /\ Forall (can_track sec) scans /\ f_runs f = true /\
  exists entries, f_scans f = Some entries /\ forall k o, nth_error scans k = Some o -> n_alts o <> [] -> Z.of_nat k < entries.
