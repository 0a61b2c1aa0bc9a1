(** Specification for C104-C107: the files MCS writes. *)
From Coq Require Import String.
From Coq Require Import List ZArith Bool.
From Verif Require Import M_CStruct S_CStruct S_Ndp M_Meta.
Import ListNotations.
Open Scope Z_scope.

(** ** The structures *)
Definition D (n : string) (t : ctype) (dims : list Z) : decl := mkDecl (cs n) t dims.

(** A session specification (MCS0030, section 5). *)
Definition ses_fields : list decl :=
  [D "FORMAT_VERSION" UShort []; D "PROJECT_ID" Char [9]; D "SESSION_ID" UInt []; D "SESSION_CRA" UShort []; D "SESSION_DRX_BEAM" Short [];
   D "SESSION_SPC" Char [32]; D "SESSION_START_MJD" ULong []; D "SESSION_START_MPM" ULong []; D "SESSION_DUR" ULong []; D "SESSION_NOBS"
   UInt []; D "SESSION_MRP_ASP" Short []; D "SESSION_MRP_NDP" Short []; D "SESSION_MRP_DR1" Short []; D "SESSION_MRP_DR2" Short []; D
   "SESSION_MRP_DR3" Short []; D "SESSION_MRP_DR4" Short []; D "SESSION_MRP_DR5" Short []; D "SESSION_MRP_SHL" Short []; D "SESSION_MRP_MCS"
   Short []; D "SESSION_MUP_ASP" Short []; D "SESSION_MUP_NDP" Short []; D "SESSION_MUP_DR1" Short []; D "SESSION_MUP_DR2" Short []; D
   "SESSION_MUP_DR3" Short []; D "SESSION_MUP_DR4" Short []; D "SESSION_MUP_DR5" Short []; D "SESSION_MUP_SHL" Short []; D "SESSION_MUP_MCS"
   Short []; D "SESSION_LOG_SCH" SChar []; D "SESSION_LOG_EXE" SChar []; D "SESSION_INC_SMIB" SChar []; D "SESSION_INC_DES" SChar []].

(** The header of an observation specification (MCS0030, section 6), one of its steps, the beam of a step, and what follows the steps. *)
Definition obs_fields : list decl :=
  [D "FORMAT_VERSION" UShort []; D "PROJECT_ID" Char [9]; D "SESSION_ID" UInt []; D "SESSION_DRX_BEAM" Short []; D "SESSION_SPC" Char [32];
   D "OBS_ID" UInt []; D "OBS_START_MJD" ULong []; D "OBS_START_MPM" ULong []; D "OBS_DUR" ULong []; D "OBS_MODE" UShort []; D "OBS_BDM"
   Char [32]; D "OBS_RA" Float []; D "OBS_DEC" Float []; D "OBS_B" UShort []; D "OBS_FREQ1" UInt []; D "OBS_FREQ2" UInt []; D "OBS_BW"
   UShort []; D "OBS_STP_N" UInt []; D "OBS_STP_RADEC" UShort []].

(** A step. *)
Definition step_fields : list decl :=
  [D "OBS_STP_C1" Float []; D "OBS_STP_C2" Float []; D "OBS_STP_T" UInt []; D "OBS_STP_FREQ1" UInt []; D "OBS_STP_FREQ2" UInt []; D
   "OBS_STP_B" UShort []].

(** The custom beam of a step: a delay for each of 512 inputs and a gain for each of 256 stands, two by two. *)
Definition beam_fields : list decl :=
  [D "OBS_BEAM_DELAY" UShort [512]; D "OBS_BEAM_GAIN" Short [256; 2; 2]].

(** What follows the steps. *)
Definition tail_fields : list decl :=
  [D "OBS_FEE" Short [256; 2]; D "OBS_ASP_FLT" Short [256]; D "OBS_ASP_AT1" Short [256]; D "OBS_ASP_AT2" Short [256]; D "OBS_ASP_AT3" Short
   [256]; D "OBS_TBT_SAMPLES" UInt []; D "OBS_DRX_GAIN" Short []; D "alignment" UInt []].

(** A command of a command script. *)
Definition action_fields : list decl :=
  [D "tv" Long [2]; D "bASAP" Int []; D "sid" Int []; D "cid" Int []; D "len" Int []].

(** The status of a subsystem in a station dynamic MIB (MCS0031). *)
Definition status_fields : list decl :=
  [D "summary" Int []; D "info" Char [256]; D "tv" Long [2]].

(** The status of the parts of the station. *)
Definition parts_fields : list decl :=
  [D "eFEEStat" Int [256]; D "eRPDStat" Int [512]; D "eSEPStat" Int [512]; D "eARBStat" Int [32; 16]; D "eSnapStat" Int [16; 64]; D
   "eServerStat" Int [5]; D "eDRStat" Int [5]].

(** The status of the antennas and of the outputs. *)
Definition ants_fields : list decl :=
  [D "ant_stat" Int [256; 2]; D "ndpo_stat" Int [5]].

(** The settings of the station. *)
Definition settings_fields : list decl :=
  [D "mrp_asp" Short []; D "mrp_ndp" Short []; D "mrp_dr1" Short []; D "mrp_dr2" Short []; D "mrp_dr3" Short []; D "mrp_dr4" Short []; D
   "mrp_dr5" Short []; D "mrp_shl" Short []; D "mrp_mcs" Short []; D "mup_asp" Short []; D "mup_ndp" Short []; D "mup_dr1" Short []; D
   "mup_dr2" Short []; D "mup_dr3" Short []; D "mup_dr4" Short []; D "mup_dr5" Short []; D "mup_shl" Short []; D "mup_mcs" Short []; D "fee"
   Short [256]; D "asp_flt" Short [256]; D "asp_at1" Short [256]; D "asp_at2" Short [256]; D "asp_at3" Short [256]; D "drx_gain" Short []].

(** ** Contents.  The values a program stored in a structure, under the names of the fields. *)
Definition values := str -> list Z.
Definition stored (fields : list decl) (v : values) (bs : list Z) : Prop := image false false (map (fun d => (d, v (d_name d))) fields) bs.
Definition scalar (v : values) (n : string) : Z := hd 0 (v (cs n)).
(** The text of a character field: up to the first NUL, or all of it. *)
Definition text_of (t field : list Z) : Prop := Forall (fun c => c <> 0) t /\ (field = t \/ exists junk, field = t ++ 0 :: junk).
Definition blank_byte (c : Z) : Prop := 9 <= c <= 13 \/ c = 32.
(** [t] without the blanks around it is [u]. *)
Definition trims_to (t u : list Z) : Prop :=
  exists a b, t = a ++ u ++ b /\ Forall blank_byte a /\ Forall blank_byte b /\
    (forall c r, u = c :: r -> ~ blank_byte c) /\ (forall c r, u = r ++ [c] -> ~ blank_byte c).

(** ** An observation specification file *)
Record step_spec := mkSpec { sp_step : values; sp_beam : values }.
Definition step_bytes (s : step_spec) (bs : list Z) : Prop :=
  exists b1 b2, bs = b1 ++ b2 ++ le 4 4294967294 /\ stored step_fields (sp_step s) b1 /\
    (scalar (sp_step s) "OBS_STP_B" = 3 -> stored beam_fields (sp_beam s) b2) /\
    (scalar (sp_step s) "OBS_STP_B" <> 3 -> b2 = []).
Definition obs_file (h : values) (steps : list step_spec) (f : values) (bs : list Z) : Prop :=
  exists hb sb fb, bs = hb ++ concat sb ++ fb /\ stored obs_fields h hb /\ Forall2 step_bytes steps sb /\ stored tail_fields f fb /\
    scalar h "OBS_STP_N" = zlen steps /\ zlen steps <= 1024 /\ scalar f "alignment" = 4294967295.
(** TRK_RADEC .. TBS *)
Definition known_mode (m : Z) : Prop := 1 <= m <= 11.

(** ** A command script *)
Record cmd_spec := mkCmdSpec { k_action : values; k_data : list Z }.
Definition tv (v : values) (i : nat) : Z := nth i (v (cs "tv")) 0.
(** A command MCS can have written: a time, 20 subsystems of which DP (13) and ADP (19) are not at this station, 46 command
    types, at most 256 bytes of data. *)
Definition good_command (c : cmd_spec) : Prop :=
  tv (k_action c) 0 <> 0 /\ 1 <= scalar (k_action c) "sid" <= 20 /\ scalar (k_action c) "sid" <> 13 /\ scalar (k_action c) "sid" <> 19 /\
  0 <= scalar (k_action c) "cid" <= 45 /\ scalar (k_action c) "len" = zlen (k_data c) /\ zlen (k_data c) <= 256 /\ bytes_ok (k_data c).
Definition command_bytes (c : cmd_spec) (bs : list Z) : Prop := exists ab, bs = ab ++ k_data c /\ stored action_fields (k_action c) ab.
(** What follows the last command: the end of the file, or a command with the time 0 and anything after it. *)
Definition script_end (bs : list Z) : Prop :=
  bs = [] \/ exists v ab rest, bs = ab ++ rest /\ stored action_fields v ab /\ tv v 0 = 0.

(** ** A station dynamic MIB *)
Record sdm_spec := mkSdmSpec { z_status : list values; z_parts : values; z_ants : values; z_set : values }.
Definition sdm_file (z : sdm_spec) (bs : list Z) : Prop :=
  exists sb pb ab tb, bs = concat sb ++ pb ++ ab ++ tb /\ Forall2 (stored status_fields) (z_status z) sb /\
    length (z_status z) = 9%nat /\                               (* station, SHL, ASP, NDP, five recorders *)
    stored parts_fields (z_parts z) pb /\ stored ants_fields (z_ants z) ab /\ stored settings_fields (z_set z) tb.

(** ** Dictionaries *)
Definition entry {A} (d : list (string * A)) (k : string) : option A :=
  match find (fun e => String.eqb (fst e) k) d with Some (_, v) => Some v | None => None end.
(** The numbers of a session specification under their keys. *)
Definition ses_numbers : list (string * string) :=
  [("version", "FORMAT_VERSION"); ("session_id", "SESSION_ID"); ("configuration_authority", "SESSION_CRA"); ("drx_beam", "SESSION_DRX_BEAM");
   ("mjd", "SESSION_START_MJD"); ("mpm", "SESSION_START_MPM"); ("dur", "SESSION_DUR"); ("nobs", "SESSION_NOBS");
   ("include_mcssch_log", "SESSION_LOG_SCH"); ("include_mcsexe_log", "SESSION_LOG_EXE"); ("include_station_smib", "SESSION_INC_SMIB");
   ("include_station_design", "SESSION_INC_DES")]%string.
(** The subsystems with a recording and an update interval; DR5 is the ninth. *)
Definition mib_systems : list string := ["ASP"; "NDP"; "SHL"; "MCS"; "DR1"; "DR2"; "DR3"; "DR4"]%string.
Definition obs_numbers : list (string * string) :=
  [("version", "FORMAT_VERSION"); ("session_id", "SESSION_ID"); ("drx_beam", "SESSION_DRX_BEAM"); ("obs_id", "OBS_ID"); ("mjd", "OBS_START_MJD");
   ("mpm", "OBS_START_MPM"); ("dur", "OBS_DUR"); ("beam", "OBS_B"); ("bw", "OBS_BW"); ("nsteps", "OBS_STP_N"); ("is_radec", "OBS_STP_RADEC")]%string.
Definition tail_lists : list (string * string) :=
  [("asp_filter", "OBS_ASP_FLT"); ("asp_atten_1", "OBS_ASP_AT1"); ("asp_atten_2", "OBS_ASP_AT2"); ("asp_atten_3", "OBS_ASP_AT3")]%string.

(** ** Names in a tarball *)
Definition has_ending (e n : str) : Prop := exists p, n = p ++ e.
(** The order of names: by the first character that differs. *)
Inductive name_before : str -> str -> Prop :=
| Before_end : forall c s, name_before [] (c :: s)
| Before_char : forall a b s t, a < b -> name_before (a :: s) (b :: t)
| Before_tail : forall c s t, name_before s t -> name_before (c :: s) (c :: t).

Definition plain_obs (n : str) : Prop := has_ending (cs ".obs") n /\ ~ In 47 n /\ hd_error n <> Some 46.   (* no '/', no leading '.' *)
(** The last member of its name. *)
Definition last_of_name (tar : list (str * list Z)) (t : str * list Z) : Prop :=
  exists a b, tar = a ++ t :: b /\ Forall (fun u => fst u <> fst t) b.
(** The first member with that ending. *)
Definition first_ending (e : str) (tar : list (str * list Z)) (t : str * list Z) : Prop :=
  has_ending e (fst t) /\ exists a b, tar = a ++ t :: b /\ Forall (fun u => ~ has_ending e (fst u)) a.

(** The subsystems in the settings of the station, with the names they have in the structure; DR5 is the ninth. *)
Definition sdm_systems : list (string * string) :=
  [("ASP", "asp"); ("NDP", "ndp"); ("DR1", "dr1"); ("DR2", "dr2"); ("DR3", "dr3"); ("DR4", "dr4"); ("SHL", "shl"); ("MCS", "mcs")]%string.
(** A nested list with the stored numbers, the last index fastest. *)
Definition table (dims : list Z) (l : list Z) (t : nest Z) : Prop :=
  shaped dims t /\ forall idx, in_shape dims idx -> get idx t = nth_error l (Z.to_nat (row_major dims idx)).

(** ** What was read, against what was stored *)
Definition step_is (s : step_spec) (st : step) : Prop :=
  s_c1 st = scalar (sp_step s) "OBS_STP_C1" /\ s_c2 st = scalar (sp_step s) "OBS_STP_C2" /\ s_t st = scalar (sp_step s) "OBS_STP_T" /\
  s_freq1 st = scalar (sp_step s) "OBS_STP_FREQ1" /\ s_freq2 st = scalar (sp_step s) "OBS_STP_FREQ2" /\ s_b st = scalar (sp_step s) "OBS_STP_B" /\
  (scalar (sp_step s) "OBS_STP_B" = 3 ->
     s_delay st = sp_beam s (cs "OBS_BEAM_DELAY") /\ shaped [256; 2; 2] (s_gain st) /\
     forall i j k, 0 <= i < 256 -> 0 <= j < 2 -> 0 <= k < 2 ->
       get [i; j; k] (s_gain st) = nth_error (sp_beam s (cs "OBS_BEAM_GAIN")) (Z.to_nat (4 * i + 2 * j + k))) /\
  (scalar (sp_step s) "OBS_STP_B" <> 3 -> s_delay st = [] /\ s_gain st = Node []).
Definition command_is (c : cmd_spec) (k : command) : Prop :=
  c_sec k = tv (k_action c) 0 /\ c_usec k = tv (k_action c) 1 /\ (c_asap k = true <-> scalar (k_action c) "bASAP" <> 0) /\
  c_sid k = scalar (k_action c) "sid" /\ c_cid k = scalar (k_action c) "cid" /\ c_len k = zlen (k_data c) /\
  c_data k = match k_data c with [] => None | d => Some d end.
Definition status_is (v : values) (s : status) : Prop :=
  st_summary s = scalar v "summary" /\ text_of (st_info s) (v (cs "info")) /\ st_sec s = tv v 0 /\ st_usec s = tv v 1.
