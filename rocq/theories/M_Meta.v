(** Model of the readers of the MCS metadata files: session and observation specifications, command scripts
    (lsl/common/metabundle.py 29-183), the station dynamic MIB (lsl/common/sdm.py), and the choice of the tarball
    member that is read (metabundle.py 305-493, _metabundle_utils.py 26-34).  A file is its list of bytes. *)
From Coq Require Import String.
From Coq Require Import List ZArith Bool.
From Verif Require Export M_CStruct M_Ndp.
Import ListNotations.
Open Scope Z_scope.

(** SSF_STRUCT (mcs.py 243-276), as it stands there *)
Definition SSF_STRUCT : str := cs "
    unsigned short int FORMAT_VERSION;
    char PROJECT_ID[9];
    unsigned int SESSION_ID;
    unsigned short int SESSION_CRA;
    signed short int SESSION_DRX_BEAM;
    char SESSION_SPC[32];
    unsigned long int SESSION_START_MJD;
    unsigned long int SESSION_START_MPM;
    unsigned long int SESSION_DUR;
    unsigned int SESSION_NOBS;
    signed short int SESSION_MRP_ASP;
    signed short int SESSION_MRP_NDP;
    signed short int SESSION_MRP_DR1;
    signed short int SESSION_MRP_DR2;
    signed short int SESSION_MRP_DR3;
    signed short int SESSION_MRP_DR4;
    signed short int SESSION_MRP_DR5;
    signed short int SESSION_MRP_SHL;
    signed short int SESSION_MRP_MCS;
    signed short int SESSION_MUP_ASP;
    signed short int SESSION_MUP_NDP;
    signed short int SESSION_MUP_DR1;
    signed short int SESSION_MUP_DR2;
    signed short int SESSION_MUP_DR3;
    signed short int SESSION_MUP_DR4;
    signed short int SESSION_MUP_DR5;
    signed short int SESSION_MUP_SHL;
    signed short int SESSION_MUP_MCS;
    signed char SESSION_LOG_SCH;
    signed char SESSION_LOG_EXE;
    signed char SESSION_INC_SMIB;
    signed char SESSION_INC_DES;
".

(** OSF_STRUCT (mcs.py 279-299), as it stands there *)
Definition OSF_STRUCT : str := cs "
    unsigned short int FORMAT_VERSION;
    char               PROJECT_ID[9];
    unsigned int       SESSION_ID;
    signed short int   SESSION_DRX_BEAM;
    char               SESSION_SPC[32];
    unsigned int       OBS_ID; 
    unsigned long int  OBS_START_MJD;
    unsigned long int  OBS_START_MPM;
    unsigned long int  OBS_DUR;
    unsigned short int OBS_MODE;
    char               OBS_BDM[32];  /* added 140310 */
    float              OBS_RA;
    float              OBS_DEC;
    unsigned short int OBS_B;
    unsigned int       OBS_FREQ1;
    unsigned int       OBS_FREQ2;
    unsigned short int OBS_BW;
    unsigned int       OBS_STP_N;
    unsigned short int OBS_STP_RADEC;
".

(** OSFS_STRUCT (mcs.py 302-309), as it stands there *)
Definition OSFS_STRUCT : str := cs "
    float              OBS_STP_C1;
    float              OBS_STP_C2;
    unsigned int       OBS_STP_T;
    unsigned int       OBS_STP_FREQ1;
    unsigned int       OBS_STP_FREQ2;
    unsigned short int OBS_STP_B;
".

(** BEAM_STRUCT (mcs.py 312-315), as it stands there *)
Definition BEAM_STRUCT : str := cs "
    unsigned short int OBS_BEAM_DELAY[2*LWA_MAX_NSTD];
    signed short int   OBS_BEAM_GAIN[LWA_MAX_NSTD][2][2];
".

(** OSF2_STRUCT (mcs.py 318-327), as it stands there *)
Definition OSF2_STRUCT : str := cs "
    signed short int   OBS_FEE[LWA_MAX_NSTD][2];
    signed short int   OBS_ASP_FLT[LWA_MAX_NSTD];
    signed short int   OBS_ASP_AT1[LWA_MAX_NSTD];
    signed short int   OBS_ASP_AT2[LWA_MAX_NSTD];
    signed short int   OBS_ASP_AT3[LWA_MAX_NSTD];
    unsigned int       OBS_TBT_SAMPLES;
    signed short int   OBS_DRX_GAIN;
    unsigned int       alignment;
".

(** STATION_SETTINGS_STRUCT (mcs.py 198-223), as it stands there *)
Definition STATION_SETTINGS_STRUCT : str := cs "
    signed short int mrp_asp; // SESSION_MRP_ASP // MRP_ASP
    signed short int mrp_ndp; // SESSION_MRP_NDP // MRP_NDP
    signed short int mrp_dr1; // SESSION_MRP_DR1 // MRP_DR1
    signed short int mrp_dr2; // SESSION_MRP_DR2 // MRP_DR2
    signed short int mrp_dr3; // SESSION_MRP_DR3 // MRP_DR3
    signed short int mrp_dr4; // SESSION_MRP_DR4 // MRP_DR4
    signed short int mrp_dr5; // SESSION_MRP_DR5 // MRP_DR5
    signed short int mrp_shl; // SESSION_MRP_SHL // MRP_SHL
    signed short int mrp_mcs; // SESSION_MRP_MCS // MRP_MCS
    signed short int mup_asp; // SESSION_MUP_ASP // MUP_ASP
    signed short int mup_ndp; // SESSION_MUP_DP_ // MUP_NDP
    signed short int mup_dr1; // SESSION_MUP_DR1 // MUP_DR1
    signed short int mup_dr2; // SESSION_MUP_DR2 // MUP_DR2
    signed short int mup_dr3; // SESSION_MUP_DR3 // MUP_DR3
    signed short int mup_dr4; // SESSION_MUP_DR4 // MUP_DR4
    signed short int mup_dr5; // SESSION_MUP_DR5 // MUP_DR5
    signed short int mup_shl; // SESSION_MUP_SHL // MUP_SHL
    signed short int mup_mcs; // SESSION_MUP_MCS // MUP_MCS
    signed short int fee[LWA_MAX_NSTD];     // OBS_FEE[LWA_MAX_NSTD][2]  // FEE[LWA_MAX_NSTD]
    signed short int asp_flt[LWA_MAX_NSTD]; // OBS_ASP_FLT[LWA_MAX_NSTD] // ASP_FLT[LWA_MAX_NSTD]
    signed short int asp_at1[LWA_MAX_NSTD]; // OBS_ASP_AT1[LWA_MAX_NSTD] // ASP_AT1[LWA_MAX_NSTD]
    signed short int asp_at2[LWA_MAX_NSTD]; // OBS_ASP_AT2[LWA_MAX_NSTD] // ASP_AT2[LWA_MAX_NSTD]
    signed short int asp_at3[LWA_MAX_NSTD]; // OBS_ASP_AT3[LWA_MAX_NSTD] // ASP_AT3[LWA_MAX_NSTD]
    signed short int drx_gain; // OBS_DRX_GAIN // DRX_GAIN
".

(** SUBSYSTEM_STATUS_STRUCT (mcs.py 226-230), as it stands there *)
Definition SUBSYSTEM_STATUS_STRUCT : str := cs "
    int summary;
    char info[256];
    long tv[2];
".

(** SUBSUBSYSTEM_STATUS_STRUCT (mcs.py 233-241), as it stands there *)
Definition SUBSUBSYSTEM_STATUS_STRUCT : str := cs "
    int    eFEEStat[ME_MAX_NFEE];                      /* FEE_STAT[] */
    int    eRPDStat[ME_MAX_NRPD];                      /* RPD_STAT[] */
    int    eSEPStat[ME_MAX_NSEP];                      /* SEP_STAT[] */
    int    eARBStat[ME_MAX_NARB][ME_MAX_NARBCH];       /* ARB_STAT[][] */
    int    eSnapStat[ME_MAX_NSNAP][ME_MAX_NSNAPCH];    /* SNAP_STAT[][] */
    int    eServerStat[ME_MAX_NSERVER];                /* SERVER_STAT[] */
    int    eDRStat[ME_MAX_NDR];                        /* DR_STAT[] */
".
(** parse_c_struct(text, endianness='little'); none of these texts raises. *)
Definition fields_of (text : str) : list field := match parse_c_struct false [] text with Ok fs => fs | Raise _ => [] end.
Definition ssf := fields_of SSF_STRUCT.
Definition osf := fields_of OSF_STRUCT.
Definition osfs := fields_of OSFS_STRUCT.
Definition beamf := fields_of BEAM_STRUCT.
Definition osf2 := fields_of OSF2_STRUCT.
Definition settings := fields_of STATION_SETTINGS_STRUCT.
Definition subsys := fields_of SUBSYSTEM_STATUS_STRUCT.
Definition subsubsys := fields_of SUBSUBSYSTEM_STATUS_STRUCT.
(** The one-field structure read after every step (metabundle.py 100-102). *)
Definition marker := fields_of (cs "
            unsigned int block;
            ").
(** The action of a command script (metabundle.py 143-149) and its data (160-162). *)
Definition actionf := fields_of (cs "
            long int tv[2];
            int bASAP;
            int sid;
            int cid;
            int len;
            ").
Definition dataf (len : Z) := fields_of (cs "
                    char data[" ++ dec len ++ cs "];
                    ").
(** The antenna and data path section of an SDM file (sdm.py 287-290). *)
Definition antsf := fields_of (cs "
        int ant_stat[ME_MAX_NSTD][2]; /* corresponds to sc.Stand[i].Ant[k].iSS, but dynamically updated */
        int ndpo_stat[ME_MAX_NDR];     /* corresponds to sc.DPO[i].iStat, but dynamically updated */
        ").

(** Attributes: all elements, the value of a scalar, the value of a character array. *)
Definition al (fs : list field) (mem : list Z) (n : string) : list Z := attr false fs mem (cs n).
Definition a1 (fs : list field) (mem : list Z) (n : string) : Z := hd 0 (al fs mem n).
Definition ac (fs : list field) (mem : list Z) (n : string) : list Z := chars (al fs mem n).
Definition am (fs : list field) (mem : list Z) (n : string) : res (nest Z) := flat_to_multi (al fs mem n) (dims_of fs (cs n)).
(** bytes.lstrip().rstrip() *)
Definition bspace (c : Z) : bool := ((9 <=? c) && (c <=? 13)) || (c =? 32).
Fixpoint blstrip (l : list Z) : list Z := match l with [] => [] | c :: r => if bspace c then blstrip r else l end.
Definition bstrip (l : list Z) : list Z := rev (blstrip (rev (blstrip l))).

(** ** Values of the dictionaries.  A float read from the file is its bit pattern; word_to_freq of a tuning word is
    kept as the word (C27 is about that conversion). *)
Record step := mkStep { s_c1 : Z; s_c2 : Z; s_t : Z; s_freq1 : Z; s_freq2 : Z; s_b : Z; s_delay : list Z; s_gain : nest Z }.
Inductive pv :=
| PInt (z : Z) | PBits (z : Z) | PBytes (l : list Z) | PList (l : list Z) | PNest (t : nest Z)
| PFreq (w : Z) | PMode (m : Z) | PDict (d : list (string * Z)) | PSteps (l : list step).

(** ** read_ses_file (metabundle.py 29-61) *)
Definition read_ses (file : list Z) : list (string * pv) :=
  let '(m, _) := readinto (fresh ssf) file in
  let i n := PInt (a1 ssf m n) in
  let mib p := PDict [("ASP", a1 ssf m (p ++ "ASP")); ("NDP", a1 ssf m (p ++ "NDP")); ("SHL", a1 ssf m (p ++ "SHL"));
                      ("MCS", a1 ssf m (p ++ "MCS")); ("DR1", a1 ssf m (p ++ "DR1")); ("DR2", a1 ssf m (p ++ "DR2"));
                      ("DR3", a1 ssf m (p ++ "DR3")); ("DR4", a1 ssf m (p ++ "DR4"))]%string in
  [("version", i "FORMAT_VERSION"); ("project_id", PBytes (bstrip (ac ssf m "PROJECT_ID"))); ("session_id", i "SESSION_ID");
   ("configuration_authority", i "SESSION_CRA"); ("drx_beam", i "SESSION_DRX_BEAM"); ("spc_setup", PBytes (ac ssf m "SESSION_SPC"));
   ("mjd", i "SESSION_START_MJD"); ("mpm", i "SESSION_START_MPM"); ("dur", i "SESSION_DUR"); ("nobs", i "SESSION_NOBS");
   ("record_mib", mib "SESSION_MRP_"); ("update_mib", mib "SESSION_MUP_");
   ("include_mcssch_log", i "SESSION_LOG_SCH"); ("include_mcsexe_log", i "SESSION_LOG_EXE");
   ("include_station_smib", i "SESSION_INC_SMIB"); ("include_station_design", i "SESSION_INC_DES")]%string.

(** ** read_obs_file (64-130) *)
(** The members of ObservingMode (mcs.py 760-775). *)
Definition observing_modes : list Z := [1; 2; 3; 4; 5; 6; 7; 8; 9; 10; 11].
Definition max_steps : Z := match lookup mcs_macros (cs "MAX_STP_N") with Some v => v | None => 0 end.
(** The loop over the steps (88-106).  The structures bstep and bbeam are reused from step to step. *)
Fixpoint read_steps (n : nat) (bstep bbeam rest : list Z) : res (list step * list Z) :=
  match n with
  | O => Ok ([], rest)
  | S k =>
      let '(bstep, rest) := readinto bstep rest in
      bind (if a1 osfs bstep "OBS_STP_B" =? 3 then
              let '(bbeam, rest) := readinto bbeam rest in
              bind (am beamf bbeam "OBS_BEAM_GAIN") (fun g => Ok (bbeam, rest, al beamf bbeam "OBS_BEAM_DELAY", g))
            else Ok (bbeam, rest, [], Node []))
           (fun '(bbeam, rest, delay, gain) =>
      let st := mkStep (a1 osfs bstep "OBS_STP_C1") (a1 osfs bstep "OBS_STP_C2") (a1 osfs bstep "OBS_STP_T")
                       (a1 osfs bstep "OBS_STP_FREQ1") (a1 osfs bstep "OBS_STP_FREQ2") (a1 osfs bstep "OBS_STP_B") delay gain in
      let '(mk, rest) := readinto (fresh marker) rest in
      if negb (a1 marker mk "block" =? 2 ^ 32 - 2) then Raise OSError
      else bind (read_steps k bstep bbeam rest) (fun '(l, rest) => Ok (st :: l, rest)))
  end.
Definition read_obs (file : list Z) : res (list (string * pv)) :=
  let '(h, rest) := readinto (fresh osf) file in
  if a1 osf h "OBS_STP_N" >? max_steps then Raise OSError
  else
    bind (read_steps (Z.to_nat (a1 osf h "OBS_STP_N")) (fresh osfs) (fresh beamf) rest) (fun '(steps, rest) =>
    let '(f, _) := readinto (fresh osf2) rest in
    if negb (a1 osf2 f "alignment" =? 2 ^ 32 - 1) then Raise OSError
    else if negb (existsb (Z.eqb (a1 osf h "OBS_MODE")) observing_modes) then Raise ValueError
    else bind (am osf2 f "OBS_FEE") (fun fee =>
    let i n := PInt (a1 osf h n) in
    Ok [("version", i "FORMAT_VERSION"); ("project_id", PBytes (bstrip (ac osf h "PROJECT_ID"))); ("session_id", i "SESSION_ID");
        ("drx_beam", i "SESSION_DRX_BEAM"); ("spc_setup", PBytes (ac osf h "SESSION_SPC")); ("obs_id", i "OBS_ID");
        ("mjd", i "OBS_START_MJD"); ("mpm", i "OBS_START_MPM"); ("dur", i "OBS_DUR"); ("mode", PMode (a1 osf h "OBS_MODE"));
        ("beamdipole_mode", PBytes (ac osf h "OBS_BDM")); ("ra", PBits (a1 osf h "OBS_RA")); ("dec", PBits (a1 osf h "OBS_DEC"));
        ("beam", i "OBS_B"); ("freq1", PFreq (a1 osf h "OBS_FREQ1")); ("freq2", PFreq (a1 osf h "OBS_FREQ2")); ("bw", i "OBS_BW");
        ("nsteps", i "OBS_STP_N"); ("is_radec", i "OBS_STP_RADEC"); ("steps", PSteps steps); ("fee_power", PNest fee);
        ("asp_filter", PList (al osf2 f "OBS_ASP_FLT")); ("asp_atten_1", PList (al osf2 f "OBS_ASP_AT1"));
        ("asp_atten_2", PList (al osf2 f "OBS_ASP_AT2")); ("asp_atten_3", PList (al osf2 f "OBS_ASP_AT3"));
        ("tbt_samples", PInt (a1 osf2 f "OBS_TBT_SAMPLES")); ("drx_gain", PInt (a1 osf2 f "OBS_DRX_GAIN"))]%string)).

(** ** read_cs_file (133-183) *)
Record command := mkCmd { c_sec : Z; c_usec : Z; c_asap : bool; c_sid : Z; c_cid : Z; c_len : Z; c_data : option (list Z) }.
(** The members of SubsystemID and CommandID (mcs.py 680-757), and DP and ADP among them. *)
Definition subsystem_ids : list Z := [1; 2; 3; 4; 5; 6; 7; 8; 9; 10; 11; 12; 13; 14; 15; 16; 17; 18; 19; 20].
Definition command_ids : list Z := zseq 0 46.
Definition sid_DP : Z := 13.
Definition sid_ADP : Z := 19.
Definition max_data : Z := match lookup mcs_macros (cs "LWA_CMD_STRUCT_DATA_FIELD_LENGTH") with Some v => v | None => 0 end.
(** 'time' is tv[0] + tv[1]/1e6: kept as the two numbers.  The loop stops at the latest when nothing is left, because
    the zeros of a new structure are then read: [fuel] is the number of bytes left plus one. *)
Fixpoint read_commands (fuel : nat) (rest : list Z) : res (list command) :=
  match fuel with
  | O => Raise MemoryError
  | S k =>
      let '(a, rest) := readinto (fresh actionf) rest in
      let tv := al actionf a "tv" in
      let len := a1 actionf a "len" in
      if hd 0 tv =? 0 then Ok []
      else if (0 <? len) && (len >? max_data) then Ok []                  (* IOError, caught at 180 *)
      else
        let '(data, rest) :=
          if 0 <? len then let '(d, rest) := readinto (fresh (dataf len)) rest in (Some (ac (dataf len) d "data"), rest)
          else (None, rest) in
        if negb (existsb (Z.eqb (a1 actionf a "sid")) subsystem_ids) then Raise ValueError
        else if negb (existsb (Z.eqb (a1 actionf a "cid")) command_ids) then Raise ValueError
        else if a1 actionf a "sid" =? sid_DP then Raise RuntimeError
        else if a1 actionf a "sid" =? sid_ADP then Raise RuntimeError
        else bind (read_commands k rest) (fun l =>
             Ok (mkCmd (hd 0 tv) (nth 1 tv 0) (negb (a1 actionf a "bASAP" =? 0)) (a1 actionf a "sid") (a1 actionf a "cid") len data :: l))
  end.
Definition read_cs (file : list Z) : res (list command) := read_commands (S (length file)) file.

(** ** The tarball: the members in order, name and content.  Simplifications: the members are plain files with
    names below the extraction directory; a name of the form './x' is not the same as 'x'. *)
Definition member := (str * list Z)%type.
Definition ends_with (s n : str) : bool := starts_with (rev s) (rev n).
(** tf.getmember(name): the last member of that name. *)
Definition getmember (tar : list member) (name : str) : option member := find (fun t => str_eqb (fst t) name) (rev tar).
(** for ti in members: if test: break (320-322, 437-439): the first member that passes, else the last one;
    for an empty tarball the variable is not set. *)
Fixpoint first_else_last (p : str -> bool) (tar : list member) : res member :=
  match tar with
  | [] => Raise NameError
  | t :: r => if p (fst t) then Ok t else match r with [] => Ok t | _ => first_else_last p r end
  end.
(** get_session_spec (305-336); [base]: the file name of the tarball without its last extension *)
Definition session_member (base : str) (tar : list member) : res member :=
  match getmember tar (base ++ cs ".ses") with
  | Some t => Ok t
  | None => first_else_last (ends_with (cs ".ses")) tar
  end.
Definition get_session_spec (base : str) (tar : list member) : res (list (string * pv)) :=
  bind (session_member base tar) (fun t => Ok (read_ses (snd t))).
(** get_command_script (428-453) *)
Definition get_command_script (tar : list member) : res (list command) :=
  bind (first_else_last (ends_with (cs ".cs")) tar) (fun t => read_cs (snd t)).
(** get_observation_spec without obs_id (339-370): all members ending in .obs are extracted, a later one replacing an
    earlier one of the same name, and those directly in the directory are read in the order of their names.
    glob's '*' does not match a name starting with '.'. *)
Fixpoint str_leb (a b : str) : bool :=
  match a, b with [], _ => true | _ :: _, [] => false | x :: a', y :: b' => if x =? y then str_leb a' b' else x <? y end.
Fixpoint insert_name (t : member) (l : list member) : list member :=
  match l with
  | [] => [t]
  | u :: r => if str_eqb (fst u) (fst t) then t :: r else if str_leb (fst t) (fst u) then t :: l else u :: insert_name t r
  end.
Definition obs_members (tar : list member) : list member :=
  fold_left (fun d t => insert_name t d)
    (filter (fun t => ends_with (cs ".obs") (fst t) && negb (existsb (Z.eqb 47) (fst t)) && negb (starts_with [46] (fst t))) tar) [].
Fixpoint read_all (l : list member) : res (list (list (string * pv))) :=
  match l with [] => Ok [] | t :: r => bind (read_obs (snd t)) (fun o => bind (read_all r) (fun os => Ok (o :: os))) end.
Definition get_observation_spec (tar : list member) : res (list (list (string * pv))) := read_all (obs_members tar).
(** is_valid (456-493): a failing session specification raises only if the failure is an IOError. *)
Definition is_valid (base : str) (tar : list member) : res bool :=
  match get_session_spec base tar with
  | Raise OSError => Raise OSError
  | r => let ok {A} (x : res A) := match x with Ok _ => true | Raise _ => false end in
         Ok (ok r && ok (get_observation_spec tar) && ok (get_command_script tar))
  end.
(** _open_tarball (26-28): functools.lru_cache with one entry, keyed by the name.  [disk]: the tarballs as they are
    at the time of the call. *)
Definition open_tarball (cache : option (str * list member)) (disk : str -> option (list member)) (name : str)
  : res (list member) * option (str * list member) :=
  let load := match disk name with Some t => (Ok t, Some (name, t)) | None => (Raise OSError, cache) end in
  match cache with
  | Some (n, t) => if str_eqb n name then (Ok t, cache) else load
  | None => load
  end.

(** ** The station dynamic MIB (sdm.py) *)
(** SubSystemStatus.binary_read (34-48); the time is kept as its two numbers. *)
Record status := mkStatus { st_summary : Z; st_info : list Z; st_sec : Z; st_usec : Z }.
Definition read_status (rest : list Z) : status * list Z :=
  let '(m, rest) := readinto (fresh subsys) rest in
  (mkStatus (a1 subsys m "summary") (ac subsys m "info") (nth 0 (al subsys m "tv") 0) (nth 1 (al subsys m "tv") 0), rest).
Fixpoint read_statuses (n : nat) (rest : list Z) : list status * list Z :=
  match n with
  | O => ([], rest)
  | S k => let '(s, rest) := read_status rest in let '(l, rest) := read_statuses k rest in (s :: l, rest)
  end.
(** The dictionaries of StationSettings (122, 127) and their update (172-188): every entry is -1 before. *)
Definition settings_dict (m : list Z) (p : string) : list (string * Z) :=
  let g n := a1 settings m (p ++ n) in
  [("ASP", g "asp"); ("NDP", g "ndp"); ("DR1", g "dr1"); ("DR2", g "dr2"); ("DR3", g "dr3"); ("DR4", g "dr4"); ("DR5", -1);
   ("SHL", g "shl"); ("MCS", g "mcs")]%string.
Record sdm := mkSdm {
  d_station : status; d_shl : status; d_asp : status; d_ndp : status; d_dr : list status;
  d_fee : list Z; d_rpd : list Z; d_sep : list Z; d_arb : nest Z; d_snap : nest Z; d_server : list Z; d_drstat : list Z;
  d_ant : nest Z; d_ndpo : nest Z;
  d_report : list (string * Z); d_update : list (string * Z);
  d_power : nest Z; d_filter : list Z; d_at1 : list Z; d_at2 : list Z; d_at3 : list Z; d_gain : Z }.
Definition n_dr : nat := match lookup mcs_macros (cs "ME_MAX_NDR") with Some v => Z.to_nat v | None => O end.
(** parse_sdm (264-300) with the binary_read methods (92-111, 158-197) *)
Definition parse_sdm (file : list Z) : res sdm :=
  let '(sta, rest) := read_status file in
  let '(shl, rest) := read_status rest in
  let '(asp, rest) := read_status rest in
  let '(ndp, rest) := read_status rest in
  let '(drs, rest) := read_statuses n_dr rest in
  let '(q, rest) := readinto (fresh subsubsys) rest in
  bind (am subsubsys q "eARBStat") (fun arb =>
  bind (am subsubsys q "eSnapStat") (fun snap =>
  let '(n, rest) := readinto (fresh antsf) rest in
  bind (am antsf n "ant_stat") (fun ant =>
  bind (am antsf n "ndpo_stat") (fun ndpo =>
  let '(s, _) := readinto (fresh settings) rest in
  bind (am settings s "fee") (fun fee =>
  Ok (mkSdm sta shl asp ndp drs
        (al subsubsys q "eFEEStat") (al subsubsys q "eRPDStat") (al subsubsys q "eSEPStat") arb snap (al subsubsys q "eServerStat") (al subsubsys q "eDRStat")
        ant ndpo (settings_dict s "mrp_") (settings_dict s "mup_")
        fee (al settings s "asp_flt") (al settings s "asp_at1") (al settings s "asp_at2") (al settings s "asp_at3") (a1 settings s "drx_gain"))))))).
(** str() of a SubSystemStatus (31-32): summary is a SummaryCode before a file is read, which '%i' does not take, and a
    plain number afterwards, which has no description. *)
Inductive summary := Code (n : Z) | Plain (n : Z).
Definition status_str (s : summary) : res unit := match s with Code _ => Raise TypeError | Plain _ => Raise AttributeError end.

(** SDM.update_antennas (247-261).  The antennas are objects: (stand, polarization, status) under an address; the
    list holds addresses.  ant_status is the nested list of the file. *)
Definition antenna := (Z * Z * Z)%type.
Definition py_nth {A} (l : list A) (i : Z) : res A :=
  let j := if i <? 0 then i + zlen l else i in
  if (j <? 0) then Raise IndexError else match nth_error l (Z.to_nat j) with Some x => Ok x | None => Raise IndexError end.
Definition ant_entry (t : nest Z) (i j : Z) : res Z :=
  match t with
  | Node rows => bind (py_nth rows i) (fun r => match r with Node c => bind (py_nth c j) (fun x => match x with Leaf v => Ok v | Node _ => Raise TypeError end) | Leaf _ => Raise TypeError end)
  | Leaf _ => Raise TypeError
  end.
Fixpoint update_antennas (t : nest Z) (heap : Z -> antenna) (ants : list Z) : res (list Z * (Z -> antenna)) :=
  match ants with
  | [] => Ok ([], heap)
  | a :: r =>
      let '(stand, pol, _) := heap a in
      bind (ant_entry t (stand - 1) pol) (fun v =>
      bind (update_antennas t (fun x => if x =? a then (stand, pol, v) else heap x) r) (fun '(l, h) => Ok (a :: l, h)))
  end.
