(** Property theorems (generated from P_MetaT.v by tools/gen_theorems.py). *)
From Coq Require Import String.
From Coq Require Import List ZArith Bool Lia Sorted.
From Verif Require Import M_CStruct S_CStruct M_Str P_Str P_CStruct P_CStructL P_CStructT M_Meta S_Meta S_Ndp P_Ndp P_Meta P_MetaC P_MetaT.
Import ListNotations.
Open Scope Z_scope.

(** A session specification file of MCS: every number is in the dictionary under its key, the project without the blanks
    around it, the special setup, and the recording and update intervals of eight subsystems.  _partial: the interval
    of the ninth, DR5, is not there (see below). *)
Theorem C104_session_partial : forall v bs rest, stored ses_fields v bs ->
  (forall k n, In (k, n) ses_numbers -> entry (read_ses (bs ++ rest)) k = Some (PInt (scalar v n))) /\
  (forall t u, text_of t (v (cs "PROJECT_ID")) -> trims_to t u -> entry (read_ses (bs ++ rest)) "project_id" = Some (PBytes u)) /\
  (exists t, entry (read_ses (bs ++ rest)) "spc_setup" = Some (PBytes t) /\ text_of t (v (cs "SESSION_SPC"))) /\
  (exists r u, entry (read_ses (bs ++ rest)) "record_mib" = Some (PDict r) /\ entry (read_ses (bs ++ rest)) "update_mib" = Some (PDict u) /\
     forall s, In s mib_systems -> entry r s = Some (scalar v ("SESSION_MRP_" ++ s)) /\ entry u s = Some (scalar v ("SESSION_MUP_" ++ s))).
Proof. exact C104_session_partial_proof. Qed.
Print Assumptions C104_session_partial.

(** The property is violated for DR5: whatever the file says, its intervals are in neither dictionary. *)
Theorem C104_DR5_refuted : forall file, exists r u,
  entry (read_ses file) "record_mib" = Some (PDict r) /\ entry (read_ses file) "update_mib" = Some (PDict u) /\ entry r "DR5" = None /\ entry u "DR5" = None.
Proof. exact C104_DR5_refuted_proof. Qed.
Print Assumptions C104_DR5_refuted.

(** It is violated for a session specification that ends early: it is read without an error, as if zeros followed. *)
Theorem C104_session_cut_refuted : forall p, zlen p <= 128 -> read_ses p = read_ses (p ++ repeat 0 (Z.to_nat (128 - zlen p))).
Proof. exact C104_session_cut_refuted_proof. Qed.
Print Assumptions C104_session_cut_refuted.

(** An observation specification file of MCS, with or without custom beams in its steps: every value is in the
    dictionary, and the steps are the stored ones in the stored order. *)
Theorem C104_observation : forall h steps f bs rest, obs_file h steps f bs -> known_mode (scalar h "OBS_MODE") ->
  exists d, read_obs (bs ++ rest) = Ok d /\
    (forall k n, In (k, n) obs_numbers -> entry d k = Some (PInt (scalar h n))) /\
    (forall t u, text_of t (h (cs "PROJECT_ID")) -> trims_to t u -> entry d "project_id" = Some (PBytes u)) /\
    (exists t, entry d "spc_setup" = Some (PBytes t) /\ text_of t (h (cs "SESSION_SPC"))) /\
    (exists t, entry d "beamdipole_mode" = Some (PBytes t) /\ text_of t (h (cs "OBS_BDM"))) /\
    entry d "mode" = Some (PMode (scalar h "OBS_MODE")) /\
    entry d "ra" = Some (PBits (scalar h "OBS_RA")) /\ entry d "dec" = Some (PBits (scalar h "OBS_DEC")) /\
    entry d "freq1" = Some (PFreq (scalar h "OBS_FREQ1")) /\ entry d "freq2" = Some (PFreq (scalar h "OBS_FREQ2")) /\
    (exists l, entry d "steps" = Some (PSteps l) /\ Forall2 step_is steps l) /\
    (exists t, entry d "fee_power" = Some (PNest t) /\ shaped [256; 2] t /\
       forall i j, 0 <= i < 256 -> 0 <= j < 2 -> get [i; j] t = nth_error (f (cs "OBS_FEE")) (Z.to_nat (2 * i + j))) /\
    (forall k n, In (k, n) tail_lists -> entry d k = Some (PList (f (cs n)))) /\
    entry d "tbt_samples" = Some (PInt (scalar f "OBS_TBT_SAMPLES")) /\ entry d "drx_gain" = Some (PInt (scalar f "OBS_DRX_GAIN")).
Proof. exact C104_observation_proof. Qed.
Print Assumptions C104_observation.

(** An observation specification file cut anywhere is refused. *)
Theorem C104_observation_cut : forall h steps f bs p q, obs_file h steps f bs -> bs = p ++ q -> q <> [] -> read_obs p = Raise OSError.
Proof. exact C104_observation_cut_proof. Qed.
Print Assumptions C104_observation_cut.

(** More than 1024 steps are refused, and so is an observing mode that does not exist. *)
Theorem C104_observation_refused :
  (forall h hb rest, stored obs_fields h hb -> 1024 < scalar h "OBS_STP_N" -> read_obs (hb ++ rest) = Raise OSError) /\
  (forall h steps f bs rest, obs_file h steps f bs -> ~ known_mode (scalar h "OBS_MODE") -> read_obs (bs ++ rest) = Raise ValueError).
Proof. exact C104_observation_refused_proof. Qed.
Print Assumptions C104_observation_refused.

(** A concrete session and a concrete observation with two steps, the first with a custom beam. *)
Example C104_example :
  (exists v bs, stored ses_fields v bs /\ scalar v "SESSION_ID" = 7 /\ scalar v "SESSION_MRP_DR5" = 30 /\
     exists t u, text_of t (v (cs "PROJECT_ID")) /\ trims_to t u /\ u = [76; 65]) /\
  exists h steps f bs, obs_file h steps f bs /\ known_mode (scalar h "OBS_MODE") /\ zlen steps = 2 /\
    map (fun s => scalar (sp_step s) "OBS_STP_B") steps = [3; 1].
Proof. exact C104_example_proof. Qed.

(** A command script of MCS: all commands in their order, each with its time, subsystem, type and data.  _partial: the data
    hold no NUL, are at most 256 bytes long, and no command has the time 0 (see below). *)
Theorem C105_script_partial : forall cmds bss tail, Forall2 command_bytes cmds bss -> Forall good_command cmds ->
  Forall (fun c => Forall (fun b => b <> 0) (k_data c)) cmds -> script_end tail ->
  exists l, read_cs (concat bss ++ tail) = Ok l /\ Forall2 command_is cmds l.
Proof. exact C105_script_partial_proof. Qed.
Print Assumptions C105_script_partial.

(** Any file is read to an end: there is a list, or an unknown subsystem or command, or one of DP and ADP. *)
Theorem C105_ends : forall file, (exists l, read_cs file = Ok l) \/ read_cs file = Raise ValueError \/ read_cs file = Raise RuntimeError.
Proof. exact C105_ends_proof. Qed.
Print Assumptions C105_ends.

(** After any number of commands, one for a subsystem or of a type that does not exist refuses the whole file, and so
    does one for DP or ADP. *)
Theorem C105_refused : forall cmds bss v ab rest, Forall2 command_bytes cmds bss -> Forall good_command cmds ->
  Forall (fun c => Forall (fun b => b <> 0) (k_data c)) cmds -> stored action_fields v ab -> tv v 0 <> 0 -> scalar v "len" <= 256 ->
  (~ (1 <= scalar v "sid" <= 20) \/ ~ (0 <= scalar v "cid" <= 45) -> read_cs (concat bss ++ ab ++ rest) = Raise ValueError) /\
  (scalar v "sid" = 13 \/ scalar v "sid" = 19 -> 0 <= scalar v "cid" <= 45 -> read_cs (concat bss ++ ab ++ rest) = Raise RuntimeError).
Proof. exact C105_refused_proof. Qed.
Print Assumptions C105_refused.

(** The property is violated for a command with more than 256 bytes of data: it and everything after it are left out
    without an error. *)
Theorem C105_long_refuted : forall cmds bss v ab rest, Forall2 command_bytes cmds bss -> Forall good_command cmds ->
  Forall (fun c => Forall (fun b => b <> 0) (k_data c)) cmds -> stored action_fields v ab -> tv v 0 <> 0 -> 256 < scalar v "len" ->
  exists l, read_cs (concat bss ++ ab ++ rest) = Ok l /\ Forall2 command_is cmds l.
Proof. exact C105_long_refuted_proof. Qed.
Print Assumptions C105_long_refuted.

(** It is violated for data with a NUL, which are cut there, and for a file that ends inside the data of a command, which is
    returned with the data that are left although its length says more. *)
Theorem C105_data_refuted : exists v ab, stored action_fields v ab /\ tv v 0 = 100 /\ scalar v "len" = 3 /\
  read_cs (ab ++ [65; 0; 66]) = Ok [mkCmd 100 0 false 12 7 3 (Some [65])] /\
  read_cs (ab ++ [65]) = Ok [mkCmd 100 0 false 12 7 3 (Some [65])].
Proof. exact C105_data_refuted_proof. Qed.
Print Assumptions C105_data_refuted.

(** A concrete script: two commands, the second with data. *)
Example C105_example : exists cmds bss, Forall2 command_bytes cmds bss /\ Forall good_command cmds /\
  Forall (fun c => Forall (fun b => b <> 0) (k_data c)) cmds /\ map k_data cmds = [[]; [68; 82; 88]].
Proof. exact C105_example_proof. Qed.

(** The session specification of a tarball: the member named like the tarball, the last one if there are several; without
    one, the first member ending in .ses.  The command script: the first member ending in .cs. *)
Theorem C106_member :
  (forall base tar t, last_of_name tar t -> fst t = base ++ cs ".ses" -> get_session_spec base tar = Ok (read_ses (snd t))) /\
  (forall base tar t, first_ending (cs ".ses") tar t -> Forall (fun u => fst u <> base ++ cs ".ses") tar ->
     get_session_spec base tar = Ok (read_ses (snd t))) /\
  (forall tar t, first_ending (cs ".cs") tar t -> get_command_script tar = read_cs (snd t)).
Proof. exact C106_member_proof. Qed.
Print Assumptions C106_member.

(** The property is violated for a tarball without a session specification or without a command script: whatever member comes
    last is read as one. *)
Theorem C106_no_member_refuted :
  (forall base tar t, Forall (fun u => ~ has_ending (cs ".ses") (fst u)) (tar ++ [t]) -> get_session_spec base (tar ++ [t]) = Ok (read_ses (snd t))) /\
  (forall tar t, Forall (fun u => ~ has_ending (cs ".cs") (fst u)) (tar ++ [t]) -> get_command_script (tar ++ [t]) = read_cs (snd t)).
Proof. exact C106_no_member_refuted_proof. Qed.
Print Assumptions C106_no_member_refuted.

(** The observations of a tarball: one for each name ending in .obs, in the order of the names, read from the last member of that
    name; one that is refused refuses all. *)
Theorem C106_observations : forall tar, exists ms,
  StronglySorted (fun a b => name_before (fst a) (fst b)) ms /\
  (forall t, In t ms <-> plain_obs (fst t) /\ last_of_name tar t) /\
  match get_observation_spec tar with
  | Ok os => Forall2 (fun t o => read_obs (snd t) = Ok o) ms os
  | Raise e => exists t, In t ms /\ read_obs (snd t) = Raise e
  end.
Proof. exact C106_observations_proof. Qed.
Print Assumptions C106_observations.

(** The property is violated by the test of a tarball: one whose only member is empty, and is none of the files of a session, is valid. *)
Theorem C106_valid_refuted : forall base n, ~ has_ending (cs ".obs") n -> is_valid base [(n, [])] = Ok true.
Proof. exact C106_valid_refuted_proof. Qed.
Print Assumptions C106_valid_refuted.

(** A tarball opened after another one is read from the disk.  _partial: not one opened twice in a row (see below). *)
Theorem C106_opened_partial : forall cache disk name t, disk name = Some t -> (forall n u, cache = Some (n, u) -> n <> name) ->
  open_tarball cache disk name = (Ok t, Some (name, t)).
Proof. exact C106_opened_partial_proof. Qed.
Print Assumptions C106_opened_partial.

(** The property is violated for a tarball opened again: the old members are returned, whether it was replaced or removed. *)
Theorem C106_opened_refuted : forall disk1 disk2 name t, disk1 name = Some t ->
  exists cache, open_tarball None disk1 name = (Ok t, cache) /\ open_tarball cache disk2 name = (Ok t, cache).
Proof. exact C106_opened_refuted_proof. Qed.
Print Assumptions C106_opened_refuted.

(** A concrete tarball: two observations out of order and one of them twice. *)
Example C106_example :
  let tar := [(cs "x_02.obs", [1]); (cs "x.ses", [2]); (cs "x_01.obs", [3]); (cs "x.cs", [4]); (cs "x_02.obs", [5]); (cs "x.ses", [6])] in
  last_of_name tar (cs "x.ses", [6]) /\ first_ending (cs ".cs") tar (cs "x.cs", [4]) /\
  obs_members tar = [(cs "x_01.obs", [3]); (cs "x_02.obs", [5])].
Proof. exact C106_example_proof. Qed.

(** A station dynamic MIB of MCS: the status of the station, of SHL, ASP, NDP and five recorders in this order, the status of the
    parts, of the antennas and of the outputs, and the settings.  _partial: the intervals of DR5 are not read (see below). *)
Theorem C107_sdm_partial : forall z bs rest, sdm_file z bs -> exists d, parse_sdm (bs ++ rest) = Ok d /\
  Forall2 status_is (z_status z) (d_station d :: d_shl d :: d_asp d :: d_ndp d :: d_dr d) /\
  d_fee d = z_parts z (cs "eFEEStat") /\ d_rpd d = z_parts z (cs "eRPDStat") /\ d_sep d = z_parts z (cs "eSEPStat") /\
  table [32; 16] (z_parts z (cs "eARBStat")) (d_arb d) /\ table [16; 64] (z_parts z (cs "eSnapStat")) (d_snap d) /\
  d_server d = z_parts z (cs "eServerStat") /\ d_drstat d = z_parts z (cs "eDRStat") /\
  table [256; 2] (z_ants z (cs "ant_stat")) (d_ant d) /\ table [5] (z_ants z (cs "ndpo_stat")) (d_ndpo d) /\
  (forall k n, In (k, n) sdm_systems -> entry (d_report d) k = Some (scalar (z_set z) ("mrp_" ++ n)) /\ entry (d_update d) k = Some (scalar (z_set z) ("mup_" ++ n))) /\
  table [256] (z_set z (cs "fee")) (d_power d) /\ d_filter d = z_set z (cs "asp_flt") /\ d_at1 d = z_set z (cs "asp_at1") /\
  d_at2 d = z_set z (cs "asp_at2") /\ d_at3 d = z_set z (cs "asp_at3") /\ d_gain d = scalar (z_set z) "drx_gain".
Proof. exact C107_sdm_partial_proof. Qed.
Print Assumptions C107_sdm_partial.

(** The property is violated for the intervals of DR5, which are -1 whatever the file says. *)
Theorem C107_DR5_refuted : forall file d, parse_sdm file = Ok d -> entry (d_report d) "DR5" = Some (-1) /\ entry (d_update d) "DR5" = Some (-1).
Proof. exact C107_DR5_refuted_proof. Qed.
Print Assumptions C107_DR5_refuted.

(** It is violated for a file that ends early: every file, the empty one included, is read without an error. *)
Theorem C107_short_refuted : forall file, exists d, parse_sdm file = Ok d.
Proof. exact C107_short_refuted_proof. Qed.
Print Assumptions C107_short_refuted.

(** It is violated by str() of a status, which is an error before and after a file was read. *)
Theorem C107_str_refuted : forall s, exists e, status_str s = Raise e.
Proof. exact C107_str_refuted_proof. Qed.
Print Assumptions C107_str_refuted.

(** Updating antennas: each antenna of the list with a stand from 1 to 256 and a polarization 0 or 1 gets the status the file has for it,
    keeps its stand and polarization, and other antennas keep theirs. *)
Theorem C107_update : forall t l ants heap, table [256; 2] l t ->
  Forall (fun a => let '(stand, pol, _) := heap a in 1 <= stand <= 256 /\ 0 <= pol <= 1) ants ->
  exists heap', update_antennas t heap ants = Ok (ants, heap') /\
    (forall a, In a ants -> let '(stand, pol, _) := heap a in
       exists s, heap' a = (stand, pol, s) /\ nth_error l (Z.to_nat (2 * (stand - 1) + pol)) = Some s) /\
    (forall a, ~ In a ants -> heap' a = heap a).
Proof. exact C107_update_proof. Qed.
Print Assumptions C107_update.

(** The property is violated for stands that are not there: stand 0 gets the status of stand 256.  A stand above 256 is an error. *)
Theorem C107_stand_refuted : forall t l heap a, table [256; 2] l t ->
  (forall pol st, heap a = (0, pol, st) -> 0 <= pol <= 1 ->
     exists heap' s, update_antennas t heap [a] = Ok ([a], heap') /\ heap' a = (0, pol, s) /\ nth_error l (Z.to_nat (510 + pol)) = Some s) /\
  (forall stand pol st, heap a = (stand, pol, st) -> 256 < stand -> 0 <= pol <= 1 -> update_antennas t heap [a] = Raise IndexError).
Proof. exact C107_stand_refuted_proof. Qed.
Print Assumptions C107_stand_refuted.

(** The property is violated for the given antennas, which are changed although the returned list is called new: it holds the same
    objects. *)
Theorem C107_in_place_refuted : exists t l heap heap', table [1; 2] l t /\ heap 5 = (1, 0, 0) /\
  update_antennas t heap [5] = Ok ([5], heap') /\ heap' 5 = (1, 0, 3).
Proof. exact C107_in_place_refuted_proof. Qed.
Print Assumptions C107_in_place_refuted.

(** A concrete file, and a table for it. *)
Example C107_example : exists z bs, sdm_file z bs /\ scalar (z_set z) "mrp_dr5" = 60 /\ map (fun v => scalar v "summary") (z_status z) = [1; 2; 3; 4; 5; 1; 1; 1; 1] /\
  nth_error (z_ants z (cs "ant_stat")) 3 = Some 3.
Proof. exact C107_example_proof. Qed.
