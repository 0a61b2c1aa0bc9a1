(** Property theorems (generated from P_SdfT.v by tools/gen_theorems.py). *)
From Coq Require Import Ascii String.
From Coq Require Import List ZArith Bool Lia QArith Qround Qabs Lqa.
From Verif Require Import M_Str P_Str P_Bar M_Sdf S_Sdf S_SdfValid P_Sdf P_SdfRun P_SdfObs P_SdfAll P_SdfBack P_SdfValid P_SdfSample P_SdfT.
Import ListNotations.
Open Scope Z_scope.
Ltac Zify.zify_post_hook ::= Z.div_mod_to_equations.

(** Every valid project that is written can be read, and what is read is [back]: texts, times, durations, tunings and
    filters as they were, coordinates to nine decimals, and settings that are not set as they were set before. *)
Theorem C54_what_comes_back : forall visible j t, proj_wf j -> render visible j = inr t -> parse_sdf t = inr (back (settled j)).
Proof. exact C54_what_comes_back_proof. Qed.
Print Assumptions C54_what_comes_back.

Example C54_what_comes_back_example : let j := sample [plain 20000 (solar true); plain 0 (TRK (RaDec 5 (-30)) 1000000000 0 6 false)] in
  proj_wf j /\ exists t, render (fun _ => true) j = inr t.
Proof. exact C54_what_comes_back_example_proof. Qed.

(** PARTIAL (missing: observations that leave unset what an earlier one has set, see the refutations): the project
    comes back as it was, with coordinates to nine decimals, if what is set for one observation is set for the later ones. *)
Theorem C54_round_trip_partial : forall visible j t, proj_wf j -> steady (s_obs (j_ses (settled j))) -> render visible j = inr t -> parse_sdf t = inr (copy (settled j)).
Proof. exact C54_round_trip_partial_proof. Qed.
Print Assumptions C54_round_trip_partial.

Example C54_round_trip_partial_example : let j := sample [with_gain 6 (plain 20000 (solar true)); plain 0 (TRK (RaDec 5 (-30)) 1000000000 0 6 false)] in
  proj_wf j /\ steady (s_obs (j_ses (settled j))) /\ project_ok (fun _ => true) j = inr true.
Proof. exact C54_round_trip_partial_example_proof. Qed.

(** A session with one observation: nothing to inherit. *)
Theorem C54_one_observation : forall visible j t o, proj_wf j -> s_obs (j_ses j) = [o] -> steady_alone (upd o) -> render visible j = inr t ->
  parse_sdf t = inr (copy (with_ses j (with_obs (j_ses j) [upd o]))).
Proof. exact C54_one_observation_proof. Qed.
Print Assumptions C54_one_observation.

Example C54_one_observation_example : steady_alone (upd (plain 0 (STEPPED 7 true [mkStep 5 6 5000 1000000000 0 true true None; mkStep 5 7 5000 1000000000 0 true false None]))) /\
  project_ok (fun _ => true) (sample [plain 0 (STEPPED 7 true [mkStep 5 6 5000 1000000000 0 true true None; mkStep 5 7 5000 1000000000 0 true false None])]) = inr true.
Proof. exact C54_one_observation_example_proof. Qed.

(** Coordinates: within half of the last decimal, and exactly if they have no more than nine decimals. *)
Theorem C54_coordinates : forall q, (Qabs (decimals 9 q - q) <= 1 # 2000000000)%Q /\ forall k, (q == k # 1000000000)%Q -> (decimals 9 q == q)%Q.
Proof. exact C54_coordinates_proof. Qed.
Print Assumptions C54_coordinates.

(** The high-dynamic-range setting of an observation is inherited by the next ones. *)
Theorem C54_high_dr_refuted : exists j t p o1 o2 b, proj_wf j /\ render (fun _ => true) j = inr t /\ parse_sdf t = inr p /\ s_obs (j_ses j) = [o1; o2] /\
  o_setup o2 = solar false /\ nth_error (s_obs (j_ses p)) 1 = Some b /\ o_setup b = solar true.
Proof. exact C54_high_dr_refuted_proof. Qed.
Print Assumptions C54_high_dr_refuted.

(** So are the gain, the beam-dipole mode and the settings of the front ends and the analog signal processors. *)
Theorem C54_settings_refuted : exists j t p o1 o2 b, proj_wf j /\ render (fun _ => true) j = inr t /\ parse_sdf t = inr p /\ s_obs (j_ses j) = [o1; o2] /\
  nth_error (s_obs (j_ses p)) 1 = Some b /\
  o_gain o2 = -1 /\ o_gain b = 6 /\ o_bdm o2 = None /\ o_bdm b <> None /\
  Forall (eq (-1, -1)) (o_fee o2) /\ Forall (eq (1, 1)) (o_fee b) /\ Forall (eq (-1)) (o_flt o2) /\ Forall (eq 3) (o_flt b) /\ Forall (eq (-1)) (o_at1 o2) /\ Forall (eq 12) (o_at1 b).
Proof. exact C54_settings_refuted_proof. Qed.
Print Assumptions C54_settings_refuted.

(** A step without its own delays and gains, after one that has them, comes back with those. *)
Theorem C54_step_refuted : exists j t p o ss b c, proj_wf j /\ render (fun _ => true) j = inr t /\ parse_sdf t = inr p /\ s_obs (j_ses j) = [o] /\
  o_setup o = STEPPED 7 true [ss; c] /\ p_spec c = None /\ s_obs (j_ses p) = [b] /\
  match o_setup b with STEPPED _ _ [_; c'] => p_spec c' = p_spec ss /\ p_spec c' <> None | _ => False end.
Proof. exact C54_step_refuted_proof. Qed.
Print Assumptions C54_step_refuted.

(** If all front ends are to have one polarization on and the other left as it is, nothing is written. *)
Theorem C54_one_polarization_refuted : exists j t p o b, proj_wf j /\ render (fun _ => true) j = inr t /\ parse_sdf t = inr p /\ s_obs (j_ses j) = [o] /\ s_obs (j_ses p) = [b] /\
  Forall (eq (1, -1)) (o_fee o) /\ Forall (eq (-1, -1)) (o_fee b).
Proof. exact C54_one_polarization_refuted_proof. Qed.
Print Assumptions C54_one_polarization_refuted.

(** The gain of a TBS observation is written, and not read. *)
Theorem C54_tbs_gain_refuted : exists j t p o b, proj_wf j /\ render (fun _ => true) j = inr t /\ parse_sdf t = inr p /\ s_obs (j_ses j) = [o] /\ s_obs (j_ses p) = [b] /\
  o_gain o = 20 /\ o_gain b = -1.
Proof. exact C54_tbs_gain_refuted_proof. Qed.
Print Assumptions C54_tbs_gain_refuted.

(** A missing title comes back as a text, remarks are cut. *)
Theorem C54_texts_refuted : exists j t p o b, proj_wf j /\ render (fun _ => true) j = inr t /\ parse_sdf t = inr p /\ s_obs (j_ses j) = [o] /\ s_obs (j_ses p) = [b] /\
  o_name o = [] /\ o_name b = tx "None provided" /\ length (o_comments o) = 5000%nat /\ length (o_comments b) = 4090%nat.
Proof. exact C54_texts_refuted_proof. Qed.
Print Assumptions C54_texts_refuted.

(** A right ascension just below 24 h is valid and is written as 24.000000000, which cannot be read. *)
Theorem C54_right_ascension_refuted : exists j t o ra, render (fun _ => true) j = inr t /\ parse_sdf t = inl ValueError /\ s_obs (j_ses j) = [o] /\
  o_setup o = TRK (RaDec ra 0) 1000000000 0 6 false /\ (0 <= ra < 24)%Q.
Proof. exact C54_right_ascension_refuted_proof. Qed.
Print Assumptions C54_right_ascension_refuted.

(** Lines that say nothing (blank, one word, keywords that end in '+') and unknown keywords make no difference. *)
Theorem C54_other_lines : forall a l b, ~ In 10 l -> ~ In 13 l -> (lex l = Skip \/ exists k ids v, lex l = Item k ids v /\ keyword_of k = KOther) ->
  parse_sdf (a ++ 10 :: l ++ 10 :: b) = parse_sdf (a ++ 10 :: b).
Proof. exact C54_other_lines_proof. Qed.
Print Assumptions C54_other_lines.

Example C54_other_lines_example : lex (tx "   ") = Skip /\ lex (tx "OBS_START+  UTC 2023/02/25 00:00:00.000") = Skip /\ lex (tx "SESSION_COLOR blue") = Item (tx "SESSION_COLOR") [-1; -1; -1; -1] (tx "blue") /\ keyword_of (tx "SESSION_COLOR") = KOther.
Proof. exact C54_other_lines_example_proof. Qed.

(** A line whose first word does not begin like a keyword, a comment for instance, is an AttributeError. *)
Theorem C54_comment_line_refuted : forall rest, parse_sdf (tx "# a comment" ++ 10 :: rest) = inl AttributeError.
Proof. exact C54_comment_line_refuted_proof. Qed.
Print Assumptions C54_comment_line_refuted.

(** A flag that is 0 in the file is set. *)
Theorem C54_flag_refuted : exists p, parse_sdf (tx "SESSION_LOG_SCH 0") = inr p /\ s_sch (j_ses p) = true.
Proof. exact C54_flag_refuted_proof. Qed.
Print Assumptions C54_flag_refuted.

(** A declination out of range is a NameError, a right ascension a ValueError. *)
Theorem C54_out_of_range_refuted : let nl := [10] in let head := tx "OBS_ID 1" ++ nl ++ tx "OBS_START_MJD 60000" ++ nl ++ tx "OBS_START_MPM 0" ++ nl ++ tx "OBS_DUR 10000" ++ nl ++ tx "OBS_MODE TRK_RADEC" ++ nl in
  parse_sdf (head ++ tx "OBS_RA 24.5" ++ nl ++ tx "OBS_DEC +45.0" ++ nl) = inl ValueError /\ parse_sdf (head ++ tx "OBS_RA 4.5" ++ nl ++ tx "OBS_DEC +95.0" ++ nl) = inl NameError.
Proof. exact C54_out_of_range_refuted_proof. Qed.
Print Assumptions C54_out_of_range_refuted.

(** A session that validate() accepts is valid: identifiers, tunings, filters and settings in range, observations and
    session within the capacity of a data recorder unit, and no two observations at the same time. *)
Theorem C55_validate_sound : forall visible s, Forall obs_wf (s_obs s) -> (forall o n, In o (s_obs s) -> o_setup o = TBT n -> 0 <= n) -> session_ok visible s = inr true -> good_session visible s.
Proof. exact C55_validate_sound_proof. Qed.
Print Assumptions C55_validate_sound.

(** PARTIAL (missing: observations with 1024 steps): a valid session is accepted. *)
Theorem C55_validate_complete_partial : forall visible s, Forall obs_wf (s_obs s) -> (forall o n, In o (s_obs s) -> o_setup o = TBT n -> 0 <= n) ->
  (forall o f rd ss, In o (s_obs s) -> o_setup o = STEPPED f rd ss -> (length ss <= 1023)%nat) -> good_session visible s -> session_ok visible s = inr true.
Proof. exact C55_validate_complete_partial_proof. Qed.
Print Assumptions C55_validate_complete_partial.

Example C55_validate_complete_partial_example : let s := sample_ses [plain 20000 (solar true); plain 0 (TRK (RaDec 5 (-30)) 1000000000 0 6 false)] in
  Forall obs_wf (s_obs s) /\ good_session (fun _ => true) s.
Proof. exact C55_validate_complete_partial_example_proof. Qed.

(** 1024 steps, the documented maximum, are refused. *)
Theorem C55_steps_refuted : forall visible a b m o f rd ss, o_setup o = STEPPED f rd ss -> length ss = 1024%nat -> obs_ok visible a b m o = inr false.
Proof. exact C55_steps_refuted_proof. Qed.
Print Assumptions C55_steps_refuted.

(** An observation without steps is a ZeroDivisionError. *)
Theorem C55_no_steps_refuted : forall visible a b m o f rd, o_setup o = STEPPED f rd [] -> obs_ok visible a b m o = inl ZeroDivisionError.
Proof. exact C55_no_steps_refuted_proof. Qed.
Print Assumptions C55_no_steps_refuted.

(** A number of samples below zero is accepted, and then two observations at the same time are. *)
Theorem C55_overlap_refuted : exists s o1 o2, Forall obs_wf (s_obs s) /\ s_obs s = [o1; o2] /\ session_ok (fun _ => true) s = inr true /\ o_setup o1 = TBT (-6729333) /\
  o_mjd o1 = o_mjd o2 /\ o_mpm o1 = o_mpm o2 /\ o_dur o2 = 10000.
Proof. exact C55_overlap_refuted_proof. Qed.
Print Assumptions C55_overlap_refuted.

(** Three of the products that the spectrometer setting takes are refused by validate(). *)
Theorem C55_metatag_refuted : forall m, In m [tx "{Stokes=CRCI}"; tx "{Stokes=XXCRCIYY}"; tx "{Stokes=I}"] -> set_metatag m = inr m /\ forall visible s, s_meta s = m -> session_ok visible s <> inr true.
Proof. exact C55_metatag_refuted_proof. Qed.
Print Assumptions C55_metatag_refuted.

(** What the spectrometer setting takes: nothing, or one of six products with or without either brace, which are
    added. *)
Theorem C55_metatag_accepts : forall v m, set_metatag v = inr m <->
  (v = [] /\ m = []) \/
  (exists t, In t (map tx ["Stokes=XXYY"; "Stokes=CRCI"; "Stokes=XXCRCIYY"; "Stokes=I"; "Stokes=IV"; "Stokes=IQUV"]%string) /\ m = [123] ++ t ++ [125] /\
     (v = t \/ v = [123] ++ t \/ v = t ++ [125] \/ v = [123] ++ t ++ [125])).
Proof. exact C55_metatag_accepts_proof. Qed.
Print Assumptions C55_metatag_accepts.

Example C55_metatag_accepts_example : set_metatag (tx "Stokes=IV}") = inr (tx "{Stokes=IV}") /\ set_metatag (tx "Stokes=XY") = inl ValueError.
Proof. exact C55_metatag_accepts_example_proof. Qed.

(** The braces can be left out. *)
Theorem C55_metatag_braces : forall m, In m [tx "Stokes=XXYY"; tx "Stokes=IV"; tx "Stokes=IQUV"] -> set_metatag m = inr (123 :: m ++ [125]) /\ existsb (str_eqb (123 :: m ++ [125])) metatags = true.
Proof. exact C55_metatag_braces_proof. Qed.
Print Assumptions C55_metatag_braces.
