(** Property theorems (generated from P_IdfT.v by tools/gen_theorems.py). *)
From Coq Require Import Ascii String.
From Coq Require Import List ZArith Bool Lia QArith Qround Qabs Lqa Permutation Sorted.
From Verif Require Import M_Str P_Str P_Bar M_Sdf S_Sdf S_SdfValid P_Sdf P_SdfRun P_SdfObs P_SdfAll P_SdfBack P_SdfValid M_Idf S_Idf S_IdfValid P_Idf P_IdfAll P_IdfValid P_IdfSample P_IdfT.
Import ListNotations.
Open Scope Z_scope.
Ltac Zify.zify_post_hook ::= Z.div_mod_to_equations.

(** Every valid project that is written: what is read from the file is [back_idf] (a project, or the exception when a scan
    without alternate phase centers follows one with them). *)
Theorem C117_what_comes_back : forall visible alt_visible alt_near j t, iproj_wf j -> render_idf visible alt_visible alt_near j = inr t -> parse_idf t = back_idf (in_order j).
Proof. exact C117_what_comes_back_proof. Qed.
Print Assumptions C117_what_comes_back.

Example C117_what_comes_back_example : let j := ip1 [scan1 20000 ToSun (-1) 2 []; scan1 0 (ToRaDec 5 (-30) (100%Q, 0%Q)) 6 (-1) [apc1 5 (0%Q, 0%Q); apc1 6 (1%Q, 2%Q)]] in
  iproj_wf j /\ exists t, render_idf yes yes2 yes2 j = inr t.
Proof. exact C117_what_comes_back_example_proof. Qed.

(** PARTIAL (missing: scans that leave out what an earlier one has, see the refutations): the project comes back as it was,
    with positions to nine decimals and proper motions to one, if what one scan sets the later ones set as well. *)
Theorem C117_round_trip_partial : forall visible alt_visible alt_near j t, iproj_wf j -> even_scans (r_scans (i_run (in_order j))) -> render_idf visible alt_visible alt_near j = inr t ->
  parse_idf t = inr (copy_idf (in_order j)).
Proof. exact C117_round_trip_partial_proof. Qed.
Print Assumptions C117_round_trip_partial.

Example C117_round_trip_partial_example : let j := ip1 [scan1 20000 (ToRaDec 5 (-30) (100%Q, 0%Q)) 6 2 [apc1 5 (1%Q, 2%Q)]; scan1 0 ToSun (-1) 2 []] in
  iproj_wf j /\ even_scans (r_scans (i_run (in_order j))) /\ iproj_ok yes yes2 yes2 j = inr true.
Proof. exact C117_round_trip_partial_example_proof. Qed.

(** A run with one scan: nothing to inherit but by its alternate phase centers. *)
Theorem C117_one_scan : forall visible alt_visible alt_near j t o, iproj_wf j -> r_scans (i_run j) = [o] -> ForallOrdPairs (fun a b => moves (a_pm a) -> moves (a_pm b)) (n_alts o) ->
  render_idf visible alt_visible alt_near j = inr t -> parse_idf t = inr (copy_idf j).
Proof. exact C117_one_scan_proof. Qed.
Print Assumptions C117_one_scan.

Example C117_one_scan_example : ForallOrdPairs (fun a b => moves (a_pm a) -> moves (a_pm b)) (n_alts (scan1 0 ToSun (-1) (-1) [apc1 5 (0%Q, 0%Q); apc1 6 (1%Q, 2%Q)])) /\
  iproj_ok yes yes2 yes2 (ip1 [scan1 0 ToSun (-1) (-1) [apc1 5 (0%Q, 0%Q); apc1 6 (1%Q, 2%Q)]]) = inr true.
Proof. exact C117_one_scan_example_proof. Qed.

(** A proper motion: within 0.05 mas/yr, and exactly if it has no more than one decimal. *)
Theorem C117_proper_motion : forall q, (Qabs (decimals 1 q - q) <= 1 # 20)%Q /\ forall k, (q == k # 10)%Q -> (decimals 1 q == q)%Q.
Proof. exact C117_proper_motion_proof. Qed.
Print Assumptions C117_proper_motion.

(** A scan without alternate phase centers after one that has them: the file cannot be read. *)
Theorem C117_alternates_refuted : exists j t o1 o2, iproj_wf j /\ render_idf yes yes2 yes2 j = inr t /\ r_scans (i_run j) = [o1; o2] /\ length (n_alts o1) = 1%nat /\ n_alts o2 = [] /\ parse_idf t = inl RuntimeError.
Proof. exact C117_alternates_refuted_proof. Qed.
Print Assumptions C117_alternates_refuted.

(** The proper motion, the gain and the filter of the analog signal processors of a scan are inherited by the next ones. *)
Theorem C117_settings_refuted : exists j t p o1 o2 b ra de pm, iproj_wf j /\ render_idf yes yes2 yes2 j = inr t /\ parse_idf t = inr p /\ r_scans (i_run j) = [o1; o2] /\ nth_error (r_scans (i_run p)) 1 = Some b /\
  n_to o2 = ToRaDec 5 (-30) (0%Q, 0%Q) /\ n_to b = ToRaDec ra de pm /\ (fst pm == 100 /\ snd pm == -5 # 2)%Q /\ n_gain o2 = -1 /\ n_gain b = 6 /\ n_asp o2 = -1 /\ n_asp b = 2.
Proof. exact C117_settings_refuted_proof. Qed.
Print Assumptions C117_settings_refuted.

(** So is the proper motion of an alternate phase center by the next one of the same scan. *)
Theorem C117_alternate_motion_refuted : exists j t p o b a1 a2 b2, iproj_wf j /\ render_idf yes yes2 yes2 j = inr t /\ parse_idf t = inr p /\ r_scans (i_run j) = [o] /\ r_scans (i_run p) = [b] /\
  n_alts o = [a1; a2] /\ nth_error (n_alts b) 1 = Some b2 /\ a_pm a2 = (0%Q, 0%Q) /\ (fst (a_pm b2) == 3 /\ snd (a_pm b2) == 4)%Q.
Proof. exact C117_alternate_motion_refuted_proof. Qed.
Print Assumptions C117_alternate_motion_refuted.

(** A scan without remarks comes back with some. *)
Theorem C117_remarks_refuted : exists j t p o b, iproj_wf j /\ render_idf yes yes2 yes2 j = inr t /\ parse_idf t = inr p /\ r_scans (i_run j) = [o] /\ r_scans (i_run p) = [b] /\
  n_comments o = None /\ n_comments b = Some (tx "None provided").
Proof. exact C117_remarks_refuted_proof. Qed.
Print Assumptions C117_remarks_refuted.

(** Exactly the good runs are valid: project id of at most eight characters, run number 1 to 9999, no station twice, one
    filter for all scans, no two scans at the same time, each scan within the limits and the data of all stations within 10 TB each. *)
Theorem C118_valid : forall visible alt_visible alt_near j, iproj_ok visible alt_visible alt_near j = inr true <-> (length (i_id j) <= 8)%nat /\ good_run visible alt_visible alt_near (i_run j).
Proof. exact C118_valid_proof. Qed.
Print Assumptions C118_valid.

Example C118_valid_example : let j := ip1 [scan1 20000 ToSun (-1) 2 []; scan1 0 (ToRaDec 5 (-30) (100%Q, 0%Q)) 6 (-1) [apc1 5 (0%Q, 0%Q)]] in
  good_run yes yes2 yes2 (i_run j) /\ iproj_ok (fun o => negb (n_mpm o =? 0)) yes2 yes2 j = inr false.
Proof. exact C118_valid_example_proof. Qed.

(** Only valid projects are written. *)
Theorem C118_only_valid_written : forall visible alt_visible alt_near j t, render_idf visible alt_visible alt_near j = inr t -> (length (i_id j) <= 8)%nat /\ good_run visible alt_visible alt_near (i_run j).
Proof. exact C118_only_valid_written_proof. Qed.
Print Assumptions C118_only_valid_written.

Example C118_only_valid_written_example : exists t, render_idf yes yes2 yes2 (ip1 [scan1 0 ToSun (-1) (-1) []]) = inr t.
Proof. exact C118_only_valid_written_example_proof. Qed.

(** Whatever scan is made from the keywords of a file has one of the four intents and coordinates on the sky, and so has each of its
    alternate phase centers. *)
Theorem C117_scans_made : forall t us o, create_scan t us = inr o ->
  known_intent (n_intent o) /\ (forall ra de pm, n_to o = ToRaDec ra de pm -> (0 <= ra < 24 /\ -90 <= de <= 90)%Q) /\
  Forall (fun a => known_intent (a_intent a) /\ (0 <= a_ra a < 24 /\ -90 <= a_dec a <= 90)%Q) (n_alts o).
Proof. exact C117_scans_made_proof. Qed.
Print Assumptions C117_scans_made.

Example C117_scans_made_example : exists o, create_scan (mkStemp 1 (tx "3C196") (tx "Target") None (Some 60000) (Some 0) (Some 10000) (tx "TRK_RADEC") 5 (-30) 1 2 7 (mkKept (0%Q, 0%Q) 1 (-1) (-1))) [mkAt 1 (mkApc (tx "x") (tx "PHASECAL") 5 40 (0%Q, 0%Q))] = inr o /\ length (n_alts o) = 1%nat.
Proof. exact C117_scans_made_example_proof. Qed.

(** validate() gives an answer unless a scan has alternate phase centers and no tuning above 0; then it is a ZeroDivisionError. *)
Theorem C118_answer_partial : forall visible alt_visible alt_near j,
  ((exists b, iproj_ok visible alt_visible alt_near j = inr b) <-> Forall (fun o => n_alts o = [] \/ Z.max (n_f1 o) (n_f2 o) <> 0) (r_scans (i_run j))) /\
  (forall e, iproj_ok visible alt_visible alt_near j = inl e -> e = ZeroDivisionError).
Proof. exact C118_answer_partial_proof. Qed.
Print Assumptions C118_answer_partial.

Example C118_answer_partial_example : Forall (fun o => n_alts o = [] \/ Z.max (n_f1 o) (n_f2 o) <> 0) [scan1 0 ToSun (-1) (-1) [apc1 5 (0%Q, 0%Q)]; scan1 20000 ToSun (-1) (-1) []].
Proof. exact C118_answer_partial_example_proof. Qed.

(** The exception, instead of the answer that the run is not valid. *)
Theorem C118_answer_refuted : exists j o, r_scans (i_run j) = [o] /\ length (n_alts o) = 1%nat /\ n_f1 o = 0 /\ iproj_ok yes yes2 yes2 j = inl ZeroDivisionError.
Proof. exact C118_answer_refuted_proof. Qed.
Print Assumptions C118_answer_refuted.

(** One session definition file for each station: session numbers from [sid] on, titles, and an observation for each scan, in
    the order of time, at the time and with the tunings and the filter of the scan. *)
Theorem C119_every_station : forall sec visible alt_visible alt_near f sid j ps, generate_sdfs sec visible alt_visible alt_near f sid j = inr ps ->
  exists scans, Permutation (r_scans (i_run j)) scans /\ StronglySorted (fun a b => n_mjd a * 86400000 + n_mpm a <= n_mjd b * 86400000 + n_mpm b) scans /\ told sec j scans sid ps.
Proof. exact C119_every_station_proof. Qed.
Print Assumptions C119_every_station.

Example C119_every_station_example : exists ps, generate_sdfs (fun _ => 1%Q) yes yes2 yes2 (mkOffice true (Some 2)) 7 (ip1 [scan1 20000 ToSun (-1) 2 []; scan1 0 (ToRaDec 5 (-30) (100%Q, 0%Q)) 6 (-1) [apc1 5 (0%Q, 0%Q)]]) = inr ps /\ length ps = 2%nat.
Proof. exact C119_every_station_example_proof. Qed.

(** Every one of them is a valid session definition, if a target that is visible in the run is visible for the station. *)
Theorem C119_valid_sessions : forall sec visible alt_visible alt_near f sid j ps seen, generate_sdfs sec visible alt_visible alt_near f sid j = inr ps ->
  1 <= sid -> sid + Z.of_nat (length (r_stations (i_run j))) <= 10000 -> (forall o b, In o (r_scans (i_run j)) -> visible o = true -> does sec o b -> seen b = true) ->
  Forall (fun p => project_ok seen p = inr true) ps.
Proof. exact C119_valid_sessions_proof. Qed.
Print Assumptions C119_valid_sessions.

Example C119_valid_sessions_example : let j := ip1 [scan1 20000 ToSun (-1) 2 []] in (exists ps, generate_sdfs (fun _ => 1%Q) yes yes2 yes2 (mkOffice true (Some 0)) 9998 j = inr ps) /\ 9998 + Z.of_nat (length (r_stations (i_run j))) <= 10000.
Proof. exact C119_valid_sessions_example_proof. Qed.

(** PARTIAL (missing: valid runs for which nothing is made, see the refutations): when the files of a valid run can be made. *)
Theorem C119_made_partial : forall sec visible alt_visible alt_near f sid j, r_stations (i_run j) <> [] -> iproj_ok visible alt_visible alt_near j = inr true ->
  ((exists ps, generate_sdfs sec visible alt_visible alt_near f sid j = inr ps) <-> can_tell sec f (sort_scans (r_scans (i_run j)))).
Proof. exact C119_made_partial_proof. Qed.
Print Assumptions C119_made_partial.

Example C119_made_partial_example : can_tell (fun _ => 1%Q) (mkOffice true (Some 1)) (sort_scans [scan1 20000 ToSun (-1) 2 []; scan1 0 ToJupiter (-1) 2 [apc1 5 (0%Q, 0%Q)]]).
Proof. exact C119_made_partial_example_proof. Qed.

(** A project to which no project office has added anything: nothing is made, whatever the run. *)
Theorem C119_fresh_project_refuted : (forall sec visible alt_visible alt_near sid j ps e, r_stations (i_run j) <> [] -> generate_sdfs sec visible alt_visible alt_near (mkOffice false e) sid j <> inr ps) /\
  exists j, iproj_ok yes yes2 yes2 j = inr true /\ generate_sdfs (fun _ => 1%Q) yes yes2 yes2 (mkOffice false None) 1 j = inl IndexError.
Proof. exact C119_fresh_project_refuted_proof. Qed.
Print Assumptions C119_fresh_project_refuted.

(** A valid tracked scan without remarks: TypeError.  A valid run without scans: IndexError. *)
Theorem C119_remarks_refuted : (exists j o, r_scans (i_run j) = [o] /\ n_comments o = None /\ iproj_ok yes yes2 yes2 j = inr true /\ generate_sdfs (fun _ => 1%Q) yes yes2 yes2 (mkOffice true (Some 1)) 1 j = inl TypeError) /\
  exists j, r_scans (i_run j) = [] /\ iproj_ok yes yes2 yes2 j = inr true /\ generate_sdfs (fun _ => 1%Q) yes yes2 yes2 (mkOffice true (Some 1)) 1 j = inl IndexError.
Proof. exact C119_remarks_refuted_proof. Qed.
Print Assumptions C119_remarks_refuted.
