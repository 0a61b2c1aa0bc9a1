(** Model of session definition files, lsl/common/sdf.py: the objects, validate(), render() and parse_sdf().
    Simplifications: one session in the project; the remarks of the project office, the UCF user name and the texts
    that only people read (OBS_START and the keywords that end in '+') are left out; floating-point numbers are
    rationals and a number read from text is the decimal written there; a duration, a tuning word and a start time
    survive the text forms that lie between the keywords and the objects (durations and times: M_SdfTime; tuning
    words: C27). *)
From Coq Require Import Ascii String.
From Coq Require Import List ZArith Bool QArith Qround Qabs.
From Verif Require Export M_Py M_Str M_Bar.
Import ListNotations.
Open Scope Z_scope.

(** A text literal. *)
Definition tx (s : string) : str := map (fun a => Z.of_N (N_of_ascii a)) (list_ascii_of_string s).
(** LWA_MAX_NSTD, MAX_STP_N (mcs.py 99, 106). *)
Definition NSTD : nat := 256.
Definition MAX_STP_N : Z := 1024.

(** ** Objects *)
(** beamDipole (1037-1053): stand, beam gain, dipole gain, polarization. *)
Record bdm := mkBdm { b_stand : Q; b_beam : Q; b_dipole : Q; b_pol : str }.
(** The 2x2 gain matrix of a stand. *)
Definition gain4 : Type := (Z * Z) * (Z * Z).
(** BeamStep (1480-1700).  [p_spec]: delays and gains.  Simplification: both or none, validate() (1718-1737) allows
    nothing else and the gains are 2x2 matrices. *)
Record bstep := mkStep { p_c1 : Q; p_c2 : Q; p_dur : Z; p_f1 : Z; p_f2 : Z; p_radec : bool; p_hdr : bool; p_spec : option (list Z * list gain4) }.
(** What is pointed at: DRX (979), Solar (1155), Jovian (1190), Lunar (1213). *)
Inductive target_kind := RaDec (ra dec : Q) | Sun | Jupiter | Moon.
Inductive setup :=
| TBT (samples : Z)                                             (* 822 *)
| TBS (f1 filter : Z)                                           (* 903 *)
| TRK (k : target_kind) (f1 f2 filter : Z) (hdr : bool)
| STEPPED (filter : Z) (radec : bool) (steps : list bstep).     (* 1247 *)
(** Observation (529-583).  A missing text is the empty one: render() writes the same for both. *)
Record obs := mkObs { o_name : str; o_target : str; o_comments : str; o_mjd : Z; o_mpm : Z; o_dur : Z; o_setup : setup;
  o_gain : Z; o_bdm : option bdm; o_fee : list (Z * Z); o_flt : list Z; o_at1 : list Z; o_at2 : list Z; o_at3 : list Z }.
(** Session (1764-1800); the MIB intervals in the order of the components below. *)
Record session := mkSes { s_id : Z; s_name : str; s_comments : str; s_method : str; s_cra : Z; s_beam : Z; s_nchan : Z; s_nwin : Z; s_meta : str;
  s_record : list Z; s_update : list Z; s_sch : bool; s_exe : bool; s_smib : bool; s_design : bool; s_obs : list obs }.
(** Project (193-216) and Observer (152-160). *)
Record project := mkProj { j_pi : Z; j_piname : str; j_id : str; j_name : str; j_comments : str; j_ses : session }.
Definition components : list str := map tx ["ASP"; "NDP"; "DR1"; "DR2"; "DR3"; "DR4"; "DR5"; "SHL"; "MCS"]%string.

Definition sum (l : list Z) : Z := fold_right Z.add 0 l.
Definition is_spec (p : bstep) : bool := match p_spec p with Some _ => true | None => false end.
(** Observation.update (586-591) as far as it changes what is rendered: Stepped.update (1275-1297) adds up the
    durations and leaves beam-dipole mode when a step has its own delays and gains. *)
Definition upd (o : obs) : obs :=
  match o_setup o with
  | STEPPED _ _ ss =>
      mkObs (o_name o) (o_target o) (o_comments o) (o_mjd o) (o_mpm o) (sum (map p_dur ss)) (o_setup o)
            (o_gain o) (if existsb is_spec ss then None else o_bdm o) (o_fee o) (o_flt o) (o_at1 o) (o_at2 o) (o_at3 o)
  | _ => o
  end.

(** ** validate *)
Definition DRX_MIN : Z := 222417950.   (* ndp.py 39-48 *)
Definition DRX_MAX : Z := 1928352663.
Definition TBS_MIN : Z := 65739295.
Definition TBS_MAX : Z := 2037918156.
Definition BEAMS_MAX : Z := 4.
(** FILTER_CODES of reader/drx.py 71; 0 for a code that is not there (1064-1067). *)
Definition drx_rate (f : Z) : Z :=
  nth (Z.to_nat f) [0; 250000; 500000; 1000000; 2000000; 4900000; 9800000; 19600000] 0 * (if f <? 0 then 0 else 1).
(** estimate_bytes of DRX (1056-1080) and Stepped (1346-1377) for a duration in milliseconds. *)
Definition drx_bytes (nchan nwin : Z) (meta : str) (filter dur : Z) : Q :=
  let rate := inject_Z (drx_rate filter) in
  let nprod := if str_eqb meta (tx "{Stokes=IQUV}") then 4 else 2 in
  let data_rate := if nchan * nwin =? 0 then (4128 * 4 * rate / 4096)%Q
                   else (inject_Z (76 + nchan * 2 * nprod * 4) * rate / inject_Z (nchan * nwin))%Q in
  (inject_Z dur / 1000 * data_rate)%Q.
(** estimate_bytes: TBT (857-875), TBS (924-938). *)
Definition bytes (nchan nwin : Z) (meta : str) (o : obs) : Q :=
  match o_setup o with
  | TBT n => (inject_Z n / 8192 * 192 * inject_Z (28 + 16 * 256 * 2))%Q
  | TBS _ _ => (inject_Z (o_dur o) / 1000 * 196000000 / 8192 * inject_Z (32 + 8 * 256 * 2))%Q
  | TRK _ _ _ f _ => drx_bytes nchan nwin meta f (o_dur o)
  | STEPPED f _ ss => drx_bytes nchan nwin meta f (sum (map p_dur ss))
  end.
(** _DRSUCapacityTB*1024**4. *)
Definition DRSU : Q := inject_Z (10 * 1024 ^ 4).
Definition fits (b : Q) : bool := negb (Qle_bool DRSU b).
Definition between (a x b : Z) : bool := (a <=? x) && (x <=? b).
(** _validate_asp (737-798). *)
Definition asp_ok (o : obs) : bool :=
  let long {A} (l : list A) := Nat.leb NSTD (length l) in
  long (o_fee o) && forallb (fun f => between (-1) (fst f) 1 && between (-1) (snd f) 1) (o_fee o) &&
  long (o_flt o) && forallb (fun f => between (-1) f 7) (o_flt o) &&
  long (o_at1 o) && forallb (fun f => between (-1) f 15) (o_at1 o) &&
  long (o_at2 o) && forallb (fun f => between (-1) f 15) (o_at2 o) &&
  long (o_at3 o) && forallb (fun f => between (-1) f 31) (o_at3 o).
Definition tuning2_ok (f : Z) : bool := between DRX_MIN f DRX_MAX || (f =? 0).
(** BeamStep.validate (1702-1757). *)
Definition step_ok (p : bstep) : bool :=
  match p_spec p with Some (d, g) => Nat.eqb (length d) (2 * NSTD) && Nat.eqb (length g) NSTD | None => true end &&
  (5 <=? p_dur p) && between DRX_MIN (p_f1 p) DRX_MAX && tuning2_ok (p_f2 p).

Section Visible.
  (** target_visibility >= 1.0: the ephemeris is not modelled. *)
  Variable visible : obs -> bool.

  (** The validate() of the modes: TBT (877-901), TBS (940-976), DRX (1112-1152), Stepped (1434-1478; target_visibility
      divides by the number of times it looked at, which is 0 without steps). *)
  Definition obs_ok (nchan nwin : Z) (meta : str) (o : obs) : exn + bool :=
    let small := fits (bytes nchan nwin meta o) && asp_ok o in
    match o_setup o with
    | TBT n => inr ((n <=? 392000000) && small)
    | TBS f1 f => inr ((1 <=? o_dur o) && between TBS_MIN f1 TBS_MAX && (f =? 8) && small)
    | TRK _ f1 f2 f _ => inr ((1 <=? o_dur o) && between DRX_MIN f1 DRX_MAX && tuning2_ok f2 && between 1 f 7 && visible o && small)
    | STEPPED f rd ss =>
        match ss with
        | [] => inl ZeroDivisionError
        | _ => inr (between 1 f 7 && forallb (fun p => step_ok p && Bool.eqb (p_radec p) rd) ss &&
                    (1 + Z.of_nat (length ss) <=? MAX_STP_N) && visible o && small)
        end
    end.
  Fixpoint all_ok (nchan nwin : Z) (meta : str) (l : list obs) : exn + bool :=
    match l with
    | [] => inr true
    | o :: r => match obs_ok nchan nwin meta o with
                | inl e => inl e
                | inr b => match all_ok nchan nwin meta r with inl e => inl e | inr c => inr (b && c) end
                end
    end.
  Definition start (o : obs) : Z := o_mjd o * 24 * 3600 * 1000 + o_mpm o.
  (** The overlap check of Session.validate (1962-1988): how many observations are running when [o] starts. *)
  Definition running (l : list obs) (o : obs) : nat := length (filter (fun c => (start c <=? start o) && (start o <? start c + o_dur c)) l).
  Definition apart (l : list obs) : bool := forallb (fun o => Nat.leb (running l o) 1) l.
  Definition is_tb (o : obs) : bool := match o_setup o with TBT _ | TBS _ _ => true | _ => false end.
  Definition in_list (x : Z) (l : list Z) : bool := existsb (Z.eqb x) l.
  Definition chan_counts : list Z := [2; 4; 8; 16; 32; 64; 128; 256; 512; 1024; 2048; 4096; 8192].
  Definition win_counts : list Z := [384; 768; 1536; 3072; 6144; 12288; 24576; 49152; 98304; 196608].
  Definition metatags : list str := map tx [""; "{Stokes=XXYY}"; "{Stokes=IQUV}"; "{Stokes=IV}"]%string.
  (** Session.spectrometer_metatag (1843-1860): braces are added. *)
  Definition set_metatag (v : str) : exn + str :=
    match v with
    | [] => inr []
    | c :: _ =>
        let v1 := if c =? 123 then v else 123 :: v in
        let v2 := if last v1 0 =? 125 then v1 else v1 ++ [125] in
        if existsb (str_eqb v2) (map tx ["{Stokes=XXYY}"; "{Stokes=CRCI}"; "{Stokes=XXCRCIYY}"; "{Stokes=I}"; "{Stokes=IV}"; "{Stokes=IQUV}"]%string) then inr v2 else inl ValueError
    end.
  (** Session.validate (1895-1999). *)
  Definition session_ok (s : session) : exn + bool :=
    let l := map upd (s_obs s) in
    match all_ok (s_nchan s) (s_nwin s) (s_meta s) l with
    | inl e => inl e
    | inr obs_good =>
        inr (between 1 (s_id s) 9999 && between 0 (s_cra s) 65535 && ((s_beam s =? -1) || between 1 (s_beam s) BEAMS_MAX) &&
             forallb (fun i => -1 <=? i) (s_record s) && forallb (fun i => -1 <=? i) (s_update s) &&
             (if (0 <? s_nchan s) || (0 <? s_nwin s) || negb (str_eqb (s_meta s) [])
              then in_list (s_nchan s) chan_counts && in_list (s_nwin s) win_counts && existsb (str_eqb (s_meta s)) metatags &&
                   negb (match l with o :: _ => is_tb o | [] => false end)
              else true) &&
             obs_good && negb (existsb is_tb l && existsb (fun o => negb (is_tb o)) l) && apart l &&
             fits (fold_right (fun o b => (bytes (s_nchan s) (s_nwin s) (s_meta s) o + b)%Q) 0%Q l))
    end.
  (** Project.validate (244-270). *)
  Definition project_ok (j : project) : exn + bool :=
    match session_ok (j_ses j) with inl e => inl e | inr b => inr (Nat.leb (length (j_id j)) 8 && b) end.

  (** ** render *)
  (** A line: keyword, indices, blanks, value. *)
  Record line := mkLine { l_key : str; l_ids : list Z; l_val : str }.
  Definition L (k : string) (ids : list Z) (v : str) : line := mkLine (tx k) ids v.
  Definition brackets (ids : list Z) : str := flat_map (fun i => 91 :: dec i ++ [93]) ids.
  (** Simplification: one blank before the value; the number of blanks does not matter (see lex below). *)
  Definition text_of (l : line) : str := l_key l ++ brackets (l_ids l) ++ 32 :: l_val l ++ [10].
  (** '%.nf' and '%+.nf' of a number, [n] > 0. *)
  Definition zpad (n : nat) (v : Z) : str := let s := dec v in rep 48 (Z.of_nat n - Z.of_nat (length s)) ++ s.
  Definition ufix (n : nat) (q : Q) : str :=
    let p := 10 ^ Z.of_nat n in let t := half_even (q * inject_Z p)%Q in dec (t / p) ++ 46 :: zpad n (t mod p).
  Definition fix_ (plus : bool) (n : nat) (q : Q) : str :=
    if Qle_bool 0 q then (if plus then [43] else []) ++ ufix n q else 45 :: ufix n (- q)%Q.
  Definition none_provided : str := tx "None provided".
  Definition or_none (s : str) : str := match s with [] => none_provided | _ => s end.
  Definition mode_text (s : setup) : str :=
    match s with
    | TBT _ => tx "TBT" | TBS _ _ => tx "TBS" | STEPPED _ _ _ => tx "STEPPED"
    | TRK (RaDec _ _) _ _ _ _ => tx "TRK_RADEC" | TRK Sun _ _ _ _ => tx "TRK_SOL" | TRK Jupiter _ _ _ _ => tx "TRK_JOV" | TRK Moon _ _ _ _ => tx "TRK_LUN"
    end.
  Definition bdm_text (b : bdm) : str :=
    dec (Qfloor (b_stand b)) ++ 32 :: ufix 4 (b_beam b) ++ 32 :: ufix 4 (b_dipole b) ++ 32 :: b_pol b.
  (** get_beam_type (694-701, 1656-1667). *)
  Definition beam_text (hdr : bool) : str := if hdr then tx "HIGH_DR" else tx "SIMPLE".
  Definition step_beam (p : bstep) : str := match p_spec p with Some _ => tx "SPEC_DELAYS_GAINS" | None => beam_text (p_hdr p) end.
  Fixpoint number {A} (i : Z) (l : list A) : list (Z * A) := match l with [] => [] | a :: r => (i, a) :: number (i + 1) r end.
  (** The lines of a step (412-436). *)
  Definition step_lines (ip : Z * bstep) : list line :=
    let '(i, p) := ip in
    [L "OBS_STP_C1" [i] (fix_ false 9 (p_c1 p)); L "OBS_STP_C2" [i] (fix_ true 9 (p_c2 p)); L "OBS_STP_T" [i] (dec (p_dur p));
     L "OBS_STP_FREQ1" [i] (dec (p_f1 p)); L "OBS_STP_FREQ2" [i] (dec (p_f2 p)); L "OBS_STP_B" [i] (step_beam p)] ++
    match p_spec p with
    | Some (d, g) =>
        map (fun x => L "OBS_BEAM_DELAY" [i; fst x] (dec (snd x))) (number 1 d) ++
        flat_map (fun x => let '(k, ((a, b), (c, e))) := x in
                  [L "OBS_BEAM_GAIN" [i; k; 1; 1] (dec a); L "OBS_BEAM_GAIN" [i; k; 1; 2] (dec b);
                   L "OBS_BEAM_GAIN" [i; k; 2; 1] (dec c); L "OBS_BEAM_GAIN" [i; k; 2; 2] (dec e)]) (number 1 g)
    | None => []
    end.
  (** The lines that depend on the mode (361-436). *)
  Definition mode_lines (s : setup) : list line :=
    match s with
    | TBT _ => []
    | TBS f1 f => [L "OBS_FREQ1" [] (dec f1); L "OBS_BW" [] (dec f)]
    | TRK k f1 f2 f h =>
        match k with RaDec ra de => [L "OBS_RA" [] (fix_ false 9 ra); L "OBS_DEC" [] (fix_ true 9 de)] | _ => [] end ++
        [L "OBS_B" [] (beam_text h); L "OBS_FREQ1" [] (dec f1); L "OBS_FREQ2" [] (dec f2); L "OBS_BW" [] (dec f)]
    | STEPPED f _ ss =>
        [L "OBS_BW" [] (dec f); L "OBS_STP_N" [] (dec (Z.of_nat (length ss)));
         L "OBS_STP_RADEC" [] (dec (match ss with p :: _ => if p_radec p then 1 else 0 | [] => 0 end))] ++
        flat_map step_lines (number 1 ss)
    end.
  (** Settings by stand (437-502): all the same, or one line for each that is set. *)
  Definition setting_lines (k : string) (l : list Z) : list line :=
    match l with
    | [] => []
    | h :: _ => if forallb (Z.eqb h) l then (if h =? -1 then [] else [L k [0] (dec h)])
                else flat_map (fun x => if snd x =? -1 then [] else [L k [fst x] (dec (snd x))]) (number 1 l)
    end.
  Definition eqb2 (a b : Z * Z) : bool := (fst a =? fst b) && (snd a =? snd b).
  Definition fee_lines (l : list (Z * Z)) : list line :=
    match l with
    | [] => []
    | h :: _ => if forallb (eqb2 h) l
                then (if (fst h =? -1) || (snd h =? -1) then [] else [L "OBS_FEE" [0; 1] (dec (fst h)); L "OBS_FEE" [0; 2] (dec (snd h))])
                else flat_map (fun x => (if fst (snd x) =? -1 then [] else [L "OBS_FEE" [fst x; 1] (dec (fst (snd x)))]) ++
                                        (if snd (snd x) =? -1 then [] else [L "OBS_FEE" [fst x; 2] (dec (snd (snd x)))])) (number 1 l)
    end.
  (** One observation (344-513). *)
  Definition obs_lines (io : Z * obs) : list line :=
    let '(i, o) := io in
    [L "OBS_ID" [] (dec i); L "OBS_TITLE" [] (or_none (o_name o)); L "OBS_TARGET" [] (or_none (o_target o));
     L "OBS_REMPI" [] (or_none (firstn 4090 (o_comments o)));
     L "OBS_START_MJD" [] (dec (o_mjd o)); L "OBS_START_MPM" [] (dec (o_mpm o)); L "OBS_DUR" [] (dec (o_dur o));
     L "OBS_MODE" [] (mode_text (o_setup o))] ++
    match o_bdm o with Some b => [L "OBS_BDM" [] (bdm_text b)] | None => [] end ++
    mode_lines (o_setup o) ++ fee_lines (o_fee o) ++ setting_lines "OBS_ASP_FLT" (o_flt o) ++
    setting_lines "OBS_ASP_AT1" (o_at1 o) ++ setting_lines "OBS_ASP_AT2" (o_at2 o) ++ setting_lines "OBS_ASP_AT3" (o_at3 o) ++
    match o_setup o with
    | TBT n => [L "OBS_TBT_SAMPLES" [] (dec n)]
    | _ => if o_gain o =? -1 then [] else [L "OBS_DRX_GAIN" [] (dec (o_gain o))]
    end.
  Definition mib_lines (pre : string) (l : list Z) : list line :=
    flat_map (fun cv => if snd cv =? -1 then [] else [mkLine (tx pre ++ fst cv) [] (dec (snd cv))]) (combine components l).
  Definition flag_line (k : string) (b : bool) : list line := if b then [L k [] (dec 1)] else [].
  (** The session (313-342).  A name that is None is written 'None provided', an empty one as it is. *)
  Definition session_lines (s : session) : list line :=
    [L "SESSION_ID" [] (dec (s_id s)); L "SESSION_TITLE" [] (s_name s); L "SESSION_REMPI" [] (or_none (firstn 4090 (s_comments s)));
     L "SESSION_REMPO" [] (tx "Requested data return method is " ++ s_method s)] ++
    (if s_cra s =? 0 then [] else [L "SESSION_CRA" [] (dec (s_cra s))]) ++
    (if s_beam s =? -1 then [] else [L "SESSION_DRX_BEAM" [] (dec (s_beam s))]) ++
    (if (s_nchan s =? 0) || (s_nwin s =? 0) then [] else [L "SESSION_SPC" [] (dec (s_nchan s) ++ 32 :: dec (s_nwin s) ++ s_meta s)]) ++
    mib_lines "SESSION_MRP_" (s_record s) ++ mib_lines "SESSION_MUP_" (s_update s) ++
    flag_line "SESSION_LOG_SCH" (s_sch s) ++ flag_line "SESSION_LOG_EXE" (s_exe s) ++
    flag_line "SESSION_INC_SMIB" (s_smib s) ++ flag_line "SESSION_INC_DES" (s_design s).
  Definition project_lines (j : project) : list line :=
    [L "PI_ID" [] (dec (j_pi j)); L "PI_NAME" [] (j_piname j); L "PROJECT_ID" [] (j_id j); L "PROJECT_TITLE" [] (j_name j);
     L "PROJECT_REMPI" [] (or_none (firstn 4090 (j_comments j)))] ++
    session_lines (j_ses j) ++ flat_map obs_lines (number 1 (s_obs (j_ses j))).

  (** observations.sort() (286): by start time, equal ones stay in order (__lt__, 806-812).  Simplification: the days
      and milliseconds are compared exactly (the code compares their sum as doubles). *)
  Fixpoint insert_obs (o : obs) (l : list obs) : list obs :=
    match l with [] => [o] | c :: r => if start o <=? start c then o :: l else c :: insert_obs o r end.
  Definition sort_obs (l : list obs) : list obs := fold_right insert_obs [] l.
  Definition with_obs (s : session) (l : list obs) : session :=
    mkSes (s_id s) (s_name s) (s_comments s) (s_method s) (s_cra s) (s_beam s) (s_nchan s) (s_nwin s) (s_meta s)
          (s_record s) (s_update s) (s_sch s) (s_exe s) (s_smib s) (s_design s) l.
  Definition with_ses (j : project) (s : session) : project := mkProj (j_pi j) (j_piname j) (j_id j) (j_name j) (j_comments j) s.
  (** update() and sort() of the session: what render() writes. *)
  Definition settled (j : project) : project := with_ses j (with_obs (j_ses j) (sort_obs (map upd (s_obs (j_ses j))))).
  (** Project.render (277-515). *)
  Definition render (j : project) : exn + str :=
    match project_ok j with
    | inl e => inl e
    | inr false => inl RuntimeError
    | inr true => inr (flat_map text_of (project_lines (settled j)))
    end.
End Visible.

(** ** parse_sdf *)
(** float(s).  Simplification: sign, digits, point, digits; no exponents, no names. *)
Definition parse_ufix (s : str) : option Q :=
  match split1 46 s with
  | None => match s with [] => None | _ => if forallb is_digit s then option_map inject_Z (parse_digits false 0 s) else None end
  | Some (a, b) =>
      if forallb is_digit a && forallb is_digit b && negb (match a ++ b with [] => true | _ => false end)
      then option_map (fun m => Qmake m (Z.to_pos (10 ^ Z.of_nat (length b)))) (parse_digits true 0 (a ++ b)) else None
  end.
Definition parse_float (s : str) : option Q :=
  match strip s with
  | [] => None
  | c :: r => if c =? 45 then option_map Qopp (parse_ufix r) else if c =? 43 then parse_ufix r else parse_ufix (c :: r)
  end.

(** The first word of a text, and the rest without the blanks before it: line.split(None, 1). *)
Fixpoint word (s : str) : str * str :=
  match s with
  | [] => ([], [])
  | c :: r => if is_space c then ([], lstrip s) else let '(w, t) := word r in (c :: w, t)
  end.
(** s.split(None, n). *)
Fixpoint words (n : nat) (s : str) : list str :=
  match lstrip s, n with
  | [], _ => []
  | t, O => [t]
  | t, S k => let '(w, r) := word t in w :: words k r
  end.
(** [A-Z_0-9\+] (2131). *)
Definition key_char (c : Z) : bool := ((65 <=? c) && (c <=? 90)) || (c =? 95) || ((48 <=? c) && (c <=? 57)) || (c =? 43).
Fixpoint key_part (s : str) : str * str :=
  match s with c :: r => if key_char c then let '(k, t) := key_part r in (c :: k, t) else ([], s) | [] => ([], []) end.
(** (\[(?P<id>[0-9]+?)\])?, [n] times. *)
Fixpoint digit_part (s : str) : str * str :=
  match s with c :: r => if is_digit c then let '(k, t) := digit_part r in (c :: k, t) else ([], s) | [] => ([], []) end.
Fixpoint id_part (n : nat) (s : str) : list Z :=
  match n with
  | O => []
  | S k =>
      match s with
      | 91 :: r => match digit_part r with
                   | (d :: ds, 93 :: t) => match parse_int (d :: ds) with Some i => i :: id_part k t | None => [] end
                   | _ => []
                   end
      | _ => []
      end
  end.
(** One line of the file (2157-2184): skipped, an exception (mtch is None: 'NoneType' has no group), or keyword,
    indices (-1 for a missing one) and value. *)
Inductive lexed := Skip | Bad | Item (key : str) (ids : list Z) (v : str).
Definition lex (s : str) : lexed :=
  match words 1 s with
  | [k; v] => match key_part k with
              | ([], _) => Bad
              | (key, rest) => if last key 0 =? 43 then Skip else Item key (firstn 4 (id_part 4 rest ++ [-1; -1; -1; -1])) v
              end
  | _ => Skip
  end.

Inductive kwd :=
| KPiId | KPiName | KProjId | KProjTitle | KProjRempi | KSesId | KSesTitle | KSesRempi | KSesRempo | KCra | KMrp (c : str) | KMup (c : str)
| KLogSch | KLogExe | KIncSmib | KIncDes | KBeam | KSpc
| KObsId | KTitle | KTarget | KRempi | KMjd | KMpm | KDur | KMode | KBdm | KRa | KDec | KB | KFreq1 | KFreq2 | KBw | KRadec
| KC1 | KC2 | KT | KSFreq1 | KSFreq2 | KSB | KDelay | KGain | KFee | KFlt | KAt1 | KAt2 | KAt3 | KSamples | KDrxGain | KForeign | KOther.
Definition kwd_table : list (string * kwd) :=
  [("PI_ID", KPiId); ("PI_NAME", KPiName); ("PROJECT_ID", KProjId); ("PROJECT_TITLE", KProjTitle); ("PROJECT_REMPI", KProjRempi);
   ("SESSION_ID", KSesId); ("SESSION_TITLE", KSesTitle); ("SESSION_REMPI", KSesRempi); ("SESSION_REMPO", KSesRempo); ("SESSION_CRA", KCra);
   ("SESSION_LOG_SCH", KLogSch); ("SESSION_LOG_EXE", KLogExe); ("SESSION_INC_SMIB", KIncSmib); ("SESSION_INC_DES", KIncDes);
   ("SESSION_DRX_BEAM", KBeam); ("SESSION_SPC", KSpc);
   ("OBS_ID", KObsId); ("OBS_TITLE", KTitle); ("OBS_TARGET", KTarget); ("OBS_REMPI", KRempi); ("OBS_START_MJD", KMjd); ("OBS_START_MPM", KMpm);
   ("OBS_DUR", KDur); ("OBS_MODE", KMode); ("OBS_BDM", KBdm); ("OBS_RA", KRa); ("OBS_DEC", KDec); ("OBS_B", KB); ("OBS_FREQ1", KFreq1);
   ("OBS_FREQ2", KFreq2); ("OBS_BW", KBw); ("OBS_STP_RADEC", KRadec); ("OBS_STP_C1", KC1); ("OBS_STP_C2", KC2); ("OBS_STP_T", KT);
   ("OBS_STP_FREQ1", KSFreq1); ("OBS_STP_FREQ2", KSFreq2); ("OBS_STP_B", KSB); ("OBS_BEAM_DELAY", KDelay); ("OBS_BEAM_GAIN", KGain);
   ("OBS_FEE", KFee); ("OBS_ASP_FLT", KFlt); ("OBS_ASP_AT1", KAt1); ("OBS_ASP_AT2", KAt2); ("OBS_ASP_AT3", KAt3);
   ("OBS_TBT_SAMPLES", KSamples); ("OBS_DRX_GAIN", KDrxGain);
   ("OBS_TBW_BITS", KForeign); ("OBS_TBW_SAMPLES", KForeign); ("OBS_TBF_SAMPLES", KForeign); ("OBS_TBN_GAIN", KForeign); ("RUN_ID", KForeign)]%string.
Fixpoint find_kwd (k : str) (l : list (string * kwd)) : kwd :=
  match l with [] => KOther | (n, w) :: r => if str_eqb k (tx n) then w else find_kwd k r end.
(** The chain of tests (2187-2536); PROJECT_REMPO and OBS_REMPO only fill the remarks of the project office. *)
Definition keyword_of (k : str) : kwd :=
  if starts_with (tx "SESSION_MRP_") k then KMrp (skipn 12 k)
  else if starts_with (tx "SESSION_MUP_") k then KMup (skipn 12 k)
  else find_kwd k kwd_table.

(** obs_temp (2145-2151), in parts: what belongs to one observation, and what is not set by every observation. *)
Record keep := mkKeep { k_hdr : bool; k_gain : Z; k_bdm : option bdm; k_fee : list (Z * Z); k_flt : list Z; k_at1 : list Z; k_at2 : list Z; k_at3 : list Z }.
Record temp := mkTemp { t_id : Z; t_name : str; t_target : str; t_comments : str; t_mjd : option Z; t_mpm : option Z; t_dur : option Z; t_mode : str;
  t_ra : Q; t_dec : Q; t_f1 : Z; t_f2 : Z; t_filter : Z; t_radec : bool; t_samples : Z; t_keep : keep }.
Definition keep0 : keep := mkKeep false (-1) None (repeat (-1, -1) NSTD) (repeat (-1) NSTD) (repeat (-1) NSTD) (repeat (-1) NSTD) (repeat (-1) NSTD).
Definition temp0 : temp := mkTemp 0 [] [] [] None None None [] 0 0 0 0 0 true 0 keep0.
(** beam_temp (2152). *)
Record btemp := mkBt { u_id : Z; u_c1 : Q; u_c2 : Q; u_dur : Z; u_f1 : Z; u_f2 : Z; u_hdr : bool; u_spec : option (list Z * list gain4) }.
Definition btemp0 : btemp := mkBt 0 0 0 0 0 0 false None.

(** Setting one entry. *)
Definition set_name v t := mkTemp (t_id t) v (t_target t) (t_comments t) (t_mjd t) (t_mpm t) (t_dur t) (t_mode t) (t_ra t) (t_dec t) (t_f1 t) (t_f2 t) (t_filter t) (t_radec t) (t_samples t) (t_keep t).
Definition set_id v t := mkTemp v (t_name t) (t_target t) (t_comments t) (t_mjd t) (t_mpm t) (t_dur t) (t_mode t) (t_ra t) (t_dec t) (t_f1 t) (t_f2 t) (t_filter t) (t_radec t) (t_samples t) (t_keep t).
Definition set_target v t := mkTemp (t_id t) (t_name t) v (t_comments t) (t_mjd t) (t_mpm t) (t_dur t) (t_mode t) (t_ra t) (t_dec t) (t_f1 t) (t_f2 t) (t_filter t) (t_radec t) (t_samples t) (t_keep t).
Definition set_comments v t := mkTemp (t_id t) (t_name t) (t_target t) v (t_mjd t) (t_mpm t) (t_dur t) (t_mode t) (t_ra t) (t_dec t) (t_f1 t) (t_f2 t) (t_filter t) (t_radec t) (t_samples t) (t_keep t).
Definition set_mjd v t := mkTemp (t_id t) (t_name t) (t_target t) (t_comments t) (Some v) (t_mpm t) (t_dur t) (t_mode t) (t_ra t) (t_dec t) (t_f1 t) (t_f2 t) (t_filter t) (t_radec t) (t_samples t) (t_keep t).
Definition set_mpm v t := mkTemp (t_id t) (t_name t) (t_target t) (t_comments t) (t_mjd t) (Some v) (t_dur t) (t_mode t) (t_ra t) (t_dec t) (t_f1 t) (t_f2 t) (t_filter t) (t_radec t) (t_samples t) (t_keep t).
Definition set_dur v t := mkTemp (t_id t) (t_name t) (t_target t) (t_comments t) (t_mjd t) (t_mpm t) (Some v) (t_mode t) (t_ra t) (t_dec t) (t_f1 t) (t_f2 t) (t_filter t) (t_radec t) (t_samples t) (t_keep t).
Definition set_mode v t := mkTemp (t_id t) (t_name t) (t_target t) (t_comments t) (t_mjd t) (t_mpm t) (t_dur t) v (t_ra t) (t_dec t) (t_f1 t) (t_f2 t) (t_filter t) (t_radec t) (t_samples t) (t_keep t).
Definition set_ra v t := mkTemp (t_id t) (t_name t) (t_target t) (t_comments t) (t_mjd t) (t_mpm t) (t_dur t) (t_mode t) v (t_dec t) (t_f1 t) (t_f2 t) (t_filter t) (t_radec t) (t_samples t) (t_keep t).
Definition set_dec v t := mkTemp (t_id t) (t_name t) (t_target t) (t_comments t) (t_mjd t) (t_mpm t) (t_dur t) (t_mode t) (t_ra t) v (t_f1 t) (t_f2 t) (t_filter t) (t_radec t) (t_samples t) (t_keep t).
Definition set_f1 v t := mkTemp (t_id t) (t_name t) (t_target t) (t_comments t) (t_mjd t) (t_mpm t) (t_dur t) (t_mode t) (t_ra t) (t_dec t) v (t_f2 t) (t_filter t) (t_radec t) (t_samples t) (t_keep t).
Definition set_f2 v t := mkTemp (t_id t) (t_name t) (t_target t) (t_comments t) (t_mjd t) (t_mpm t) (t_dur t) (t_mode t) (t_ra t) (t_dec t) (t_f1 t) v (t_filter t) (t_radec t) (t_samples t) (t_keep t).
Definition set_filter v t := mkTemp (t_id t) (t_name t) (t_target t) (t_comments t) (t_mjd t) (t_mpm t) (t_dur t) (t_mode t) (t_ra t) (t_dec t) (t_f1 t) (t_f2 t) v (t_radec t) (t_samples t) (t_keep t).
Definition set_radec v t := mkTemp (t_id t) (t_name t) (t_target t) (t_comments t) (t_mjd t) (t_mpm t) (t_dur t) (t_mode t) (t_ra t) (t_dec t) (t_f1 t) (t_f2 t) (t_filter t) v (t_samples t) (t_keep t).
Definition set_samples v t := mkTemp (t_id t) (t_name t) (t_target t) (t_comments t) (t_mjd t) (t_mpm t) (t_dur t) (t_mode t) (t_ra t) (t_dec t) (t_f1 t) (t_f2 t) (t_filter t) (t_radec t) v (t_keep t).
Definition set_keep v t := mkTemp (t_id t) (t_name t) (t_target t) (t_comments t) (t_mjd t) (t_mpm t) (t_dur t) (t_mode t) (t_ra t) (t_dec t) (t_f1 t) (t_f2 t) (t_filter t) (t_radec t) (t_samples t) v.
Definition keep_hdr v k := mkKeep v (k_gain k) (k_bdm k) (k_fee k) (k_flt k) (k_at1 k) (k_at2 k) (k_at3 k).
Definition keep_gain v k := mkKeep (k_hdr k) v (k_bdm k) (k_fee k) (k_flt k) (k_at1 k) (k_at2 k) (k_at3 k).
Definition keep_bdm v k := mkKeep (k_hdr k) (k_gain k) v (k_fee k) (k_flt k) (k_at1 k) (k_at2 k) (k_at3 k).
Definition keep_fee v k := mkKeep (k_hdr k) (k_gain k) (k_bdm k) v (k_flt k) (k_at1 k) (k_at2 k) (k_at3 k).
Definition keep_flt v k := mkKeep (k_hdr k) (k_gain k) (k_bdm k) (k_fee k) v (k_at1 k) (k_at2 k) (k_at3 k).
Definition keep_at1 v k := mkKeep (k_hdr k) (k_gain k) (k_bdm k) (k_fee k) (k_flt k) v (k_at2 k) (k_at3 k).
Definition keep_at2 v k := mkKeep (k_hdr k) (k_gain k) (k_bdm k) (k_fee k) (k_flt k) (k_at1 k) v (k_at3 k).
Definition keep_at3 v k := mkKeep (k_hdr k) (k_gain k) (k_bdm k) (k_fee k) (k_flt k) (k_at1 k) (k_at2 k) v.

(** l[i], l[i] = a for a Python index. *)
Definition py_index (n : nat) (i : Z) : option nat :=
  let k := if i <? 0 then i + Z.of_nat n else i in if (0 <=? k) && (k <? Z.of_nat n) then Some (Z.to_nat k) else None.
Fixpoint set_nth {A} (n : nat) (a : A) (l : list A) : list A :=
  match l, n with [], _ => [] | _ :: r, O => a :: r | b :: r, S k => b :: set_nth k a r end.
Definition py_set {A} (i : Z) (a : A) (l : list A) : option (list A) :=
  match py_index (length l) i with Some n => Some (set_nth n a l) | None => None end.
Definition py_get {A} (i : Z) (l : list A) : option A :=
  match py_index (length l) i with Some n => nth_error l n | None => None end.
Definition set2 {A} (i : Z) (a : A) (p : A * A) : option (A * A) :=
  match py_index 2 i with Some O => Some (a, snd p) | Some _ => Some (fst p, a) | None => None end.
Definition get2 {A} (i : Z) (p : A * A) : option A :=
  match py_index 2 i with Some O => Some (fst p) | Some _ => Some (snd p) | None => None end.
Fixpoint all_some {A} (l : list (option A)) : option (list A) :=
  match l with [] => Some [] | Some a :: r => option_map (cons a) (all_some r) | None :: _ => None end.

(** ['key[id]'] for the settings by stand (2480-2525). *)
Definition put_setting (id v : Z) (l : list Z) : list Z :=
  if id =? 0 then map (fun _ => v) l else match py_set (id - 1) v l with Some m => m | None => l end.
Definition put_fee (id pol v : Z) (l : list (Z * Z)) : option (list (Z * Z)) :=
  if id =? 0 then all_some (map (set2 (pol - 1) v) l)
  else match py_get (id - 1) l with
       | None => Some l
       | Some f => match set2 (pol - 1) v f with
                   | None => Some l
                   | Some f' => match py_set (id - 1) f' l with Some m => Some m | None => Some l end
                   end
       end.

(** A duration in milliseconds from a number of samples (849-854). *)
Definition tbt_dur (samples : Z) : Z := half_even ((inject_Z samples / 196000 + 1) * 150 + 5000)%Q.
(** The start (2034-2039): milliseconds beyond a day belong to the next days. *)
Definition norm_start (mjd mpm : Z) : Z * Z := (mjd + mpm / 86400000, mpm mod 86400000).
(** BeamStep(...): c1 and c2 are checked (1545-1593). *)
Definition make_step (radec : bool) (u : btemp) : exn + bstep :=
  let lim := if radec then 24%Q else 360%Q in
  let low := if radec then (-90)%Q else 0%Q in
  if negb (Qle_bool 0 (u_c1 u)) || Qle_bool lim (u_c1 u) then inl ValueError
  else if negb (Qle_bool low (u_c2 u)) || negb (Qle_bool (u_c2 u) 90) then inl ValueError
  else
    let st := mkStep (u_c1 u) (u_c2 u) (u_dur u) (u_f1 u) (u_f2 u) radec (u_hdr u) (u_spec u) in
    match u_spec u with
    | Some (d, g) => if Nat.eqb (length d) (2 * NSTD) && Nat.eqb (length g) NSTD then inr st else inl RuntimeError
    | None => inr st
    end.
Fixpoint make_steps (radec : bool) (l : list btemp) : exn + list bstep :=
  match l with
  | [] => inr []
  | u :: r => match make_step radec u with
              | inl e => inl e
              | inr p => match make_steps radec r with inl e => inl e | inr ps => inr (p :: ps) end
              end
  end.
Inductive tmode := MTbt | MTbs | MRadec | MSol | MJov | MLun | MStepped | MBad.
Definition mode_of (s : str) : tmode :=
  if str_eqb s (tx "TBT") then MTbt else if str_eqb s (tx "TBS") then MTbs else if str_eqb s (tx "TRK_RADEC") then MRadec
  else if str_eqb s (tx "TRK_SOL") then MSol else if str_eqb s (tx "TRK_JOV") then MJov else if str_eqb s (tx "TRK_LUN") then MLun
  else if str_eqb s (tx "STEPPED") then MStepped else MBad.
(** _parse_create_obs_object (2022-2119): KeyError without a start, NameError (durString) without a duration, NameError
    from the message of the dec setter (672).  The gain and the other settings of TBT and TBS are the ones of the
    constructors. *)
Definition create (t : temp) (us : list btemp) : exn + obs :=
  let k := t_keep t in
  match t_mjd t, t_mpm t with
  | Some mjd, Some mpm =>
      let '(day, ms) := norm_start mjd mpm in
      let make dur s gain := upd (mkObs (t_name t) (t_target t) (t_comments t) day ms dur s gain (k_bdm k) (k_fee k) (k_flt k) (k_at1 k) (k_at2 k) (k_at3 k)) in
      let timed (f : Z -> exn + obs) := match t_dur t with Some d => f d | None => inl NameError end in
      let track kd := timed (fun d => inr (make d (TRK kd (t_f1 t) (t_f2 t) (t_filter t) (k_hdr k)) (k_gain k))) in
      match mode_of (t_mode t) with
      | MTbt => inr (make (tbt_dur (t_samples t)) (TBT (t_samples t)) (-1))
      | MTbs => timed (fun d => inr (make d (TBS (t_f1 t) (t_filter t)) (-1)))
      | MRadec => timed (fun d =>
                    if negb (Qle_bool 0 (t_ra t)) || Qle_bool 24 (t_ra t) then inl ValueError
                    else if negb (Qle_bool (-90) (t_dec t)) || negb (Qle_bool (t_dec t) 90) then inl NameError
                    else inr (make d (TRK (RaDec (t_ra t) (t_dec t)) (t_f1 t) (t_f2 t) (t_filter t) (k_hdr k)) (k_gain k)))
      | MSol => track Sun
      | MJov => track Jupiter
      | MLun => track Moon
      | MStepped => match make_steps (t_radec t) us with
                    | inl e => inl e
                    | inr ps => inr (make 0 (STEPPED (t_filter t) (t_radec t) ps) (k_gain k))
                    end
      | MBad => inl RuntimeError
      end
  | _, _ => inl KeyError
  end.

(** The state of the loop: the project read so far (its observations in order), obs_temp, beam_temps. *)
Record pstate := mkSt { q_proj : project; q_temp : temp; q_steps : list btemp }.
Definition ses0 : session := mkSes 0 (tx "session_name") [] (tx "DRSU") 0 (-1) 0 0 [] (repeat (-1) 9) (repeat (-1) 9) false false false false [].
Definition proj0 : project := mkProj 0 (tx "observer_name") (tx "project_id") (tx "project_name") [] ses0.
Definition st0 : pstate := mkSt proj0 temp0 [].

Definition on_temp (f : temp -> temp) (st : pstate) : exn + pstate := inr (mkSt (q_proj st) (f (q_temp st)) (q_steps st)).
Definition on_keep (f : keep -> keep) (st : pstate) : exn + pstate := on_temp (fun t => set_keep (f (t_keep t)) t) st.
Definition on_ses (f : session -> session) (st : pstate) : exn + pstate := inr (mkSt (with_ses (q_proj st) (f (j_ses (q_proj st)))) (q_temp st) (q_steps st)).
(** int(value), float(value) or the exception. *)
Definition with_int {A} (v : str) (f : Z -> exn + A) : exn + A := match parse_int v with Some i => f i | None => inl ValueError end.
Definition with_float {A} (v : str) (f : Q -> exn + A) : exn + A := match parse_float v with Some q => f q | None => inl ValueError end.
(** beam_temps[-1], made from the one before when the step number is new (the pattern of 2304-2313). *)
Definition touch (id : Z) (us : list btemp) : list btemp :=
  match rev us with
  | [] => [mkBt id (u_c1 btemp0) (u_c2 btemp0) (u_dur btemp0) (u_f1 btemp0) (u_f2 btemp0) (u_hdr btemp0) (u_spec btemp0)]
  | u :: _ => if u_id u =? id then us else us ++ [mkBt id (u_c1 u) (u_c2 u) (u_dur u) (u_f1 u) (u_f2 u) (u_hdr u) (u_spec u)]
  end.
Fixpoint on_last (f : btemp -> exn + btemp) (us : list btemp) : exn + list btemp :=
  match us with
  | [] => inr []
  | [u] => match f u with inl e => inl e | inr v => inr [v] end
  | u :: r => match on_last f r with inl e => inl e | inr s => inr (u :: s) end
  end.
Definition on_step (id : Z) (f : btemp -> exn + btemp) (st : pstate) : exn + pstate :=
  match on_last f (touch id (q_steps st)) with inl e => inl e | inr us => inr (mkSt (q_proj st) (q_temp st) us) end.
Definition zero_spec : list Z * list gain4 := (repeat 0 (2 * NSTD), repeat ((0, 0), (0, 0)) NSTD).
(** OBS_STP_B (2370-2409). *)
Definition put_beam (v : str) (u : btemp) : btemp :=
  if str_eqb v (tx "HIGH_DR") || str_eqb v (tx "2") then mkBt (u_id u) (u_c1 u) (u_c2 u) (u_dur u) (u_f1 u) (u_f2 u) true (u_spec u)
  else if str_eqb v (tx "SPEC_DELAYS_GAINS") || str_eqb v (tx "3") then mkBt (u_id u) (u_c1 u) (u_c2 u) (u_dur u) (u_f1 u) (u_f2 u) (u_hdr u) (Some zero_spec)
  else mkBt (u_id u) (u_c1 u) (u_c2 u) (u_dur u) (u_f1 u) (u_f2 u) false (u_spec u).
Definition put_spec (s : list Z * list gain4) (u : btemp) : btemp := mkBt (u_id u) (u_c1 u) (u_c2 u) (u_dur u) (u_f1 u) (u_f2 u) (u_hdr u) (Some s).
(** OBS_BEAM_DELAY (2411-2428), OBS_BEAM_GAIN (2430-2447). *)
Definition put_delay (i v : Z) (u : btemp) : exn + btemp :=
  match u_spec u with
  | None => inl TypeError
  | Some (d, g) => match py_set (i - 1) v d with Some d' => inr (put_spec (d', g) u) | None => inl RuntimeError end
  end.
Definition put_gain (i a b v : Z) (u : btemp) : exn + btemp :=
  match u_spec u with
  | None => inl TypeError
  | Some (d, g) =>
      match py_get (i - 1) g with
      | None => inr u
      | Some m => match get2 (a - 1) m with
                  | None => inr u
                  | Some r => match set2 (b - 1) v r with
                              | None => inr u
                              | Some r' => match set2 (a - 1) r' m with
                                           | None => inr u
                                           | Some m' => match py_set (i - 1) m' g with Some g' => inr (put_spec (d, g') u) | None => inr u end
                                           end
                              end
                  end
      end
  end.
(** OBS_BDM (2257-2264). *)
Definition parse_bdm (v : str) : option bdm :=
  match words 3 (strip (drop_char 39 v)) with
  | [a; b; c; d] => match parse_int a, parse_float b, parse_float c with
                    | Some i, Some x, Some y => Some (mkBdm (inject_Z i) x y d)
                    | _, _, _ => None
                    end
  | _ => None
  end.
(** SESSION_SPC (2227-2246): the metatag is the greedy \{.*\}; one number (or three) would make spc_setup that long.
    Simplification: anything but two numbers or none is a ValueError here. *)
Definition cut_meta (v : str) : str * str :=
  match split1 123 v with
  | None => (v, [])
  | Some (a, r) => match rsplit1 125 r with None => (v, []) | Some (m, b) => (a ++ b, 123 :: m ++ [125]) end
  end.
Definition put_spc (v : str) (s : session) : exn + session :=
  let '(nums, meta) := cut_meta (drop_char 39 v) in
  let set a b m := mkSes (s_id s) (s_name s) (s_comments s) (s_method s) (s_cra s) (s_beam s) a b m (s_record s) (s_update s) (s_sch s) (s_exe s) (s_smib s) (s_design s) (s_obs s) in
  match words 1 (strip nums) with
  | [] => inr (set 0 0 [])
  | [a; b] => match parse_int a, parse_int b with Some x, Some y => inr (set x y meta) | _, _ => inl ValueError end
  | _ => inl ValueError
  end.
Fixpoint find_component (c : str) (l : list str) : option nat :=
  match l with [] => None | x :: r => if str_eqb c x then Some O else option_map S (find_component c r) end.
(** record_mib[component] = v.  Simplification: an entry that render() would never write is dropped. *)
Definition put_mib (c : str) (v : Z) (l : list Z) : list Z := match find_component c components with Some n => set_nth n v l | None => l end.
(** value.split(';;', 1)[0]. *)
Fixpoint before_semi (s : str) : str :=
  match s with
  | [] => []
  | c :: r => if (c =? 59) && match r with d :: _ => d =? 59 | [] => false end then [] else c :: before_semi r
  end.
(** SESSION_REMPO (2216-2232). *)
Definition put_method (v : str) (s : session) : session :=
  let first := before_semi v in
  if str_eqb (firstn 31 first) (tx "Requested data return method is")
  then mkSes (s_id s) (s_name s) (s_comments s) (skipn 32 first) (s_cra s) (s_beam s) (s_nchan s) (s_nwin s) (s_meta s) (s_record s) (s_update s) (s_sch s) (s_exe s) (s_smib s) (s_design s) (s_obs s)
  else s.

Definition ses_set (s : session) (id : Z) (name comments : str) (cra beam : Z) (rc up : list Z) (a b c d : bool) : session :=
  mkSes id name comments (s_method s) cra beam (s_nchan s) (s_nwin s) (s_meta s) rc up a b c d (s_obs s).
Definition add_obs (o : obs) (s : session) : session := with_obs s (s_obs s ++ [o]).
(** The creation of the observation that is complete (2249-2252, 2543-2546). *)
Definition finish (st : pstate) : exn + pstate :=
  if t_id (q_temp st) =? 0 then inr st
  else match create (q_temp st) (q_steps st) with
       | inl e => inl e
       | inr o => inr (mkSt (with_ses (q_proj st) (add_obs o (j_ses (q_proj st)))) (q_temp st) [])
       end.

(** The body of the loop for a keyword, its four indices and the value (2186-2540). *)
Definition apply (k : kwd) (ids : list Z) (v : str) (st : pstate) : exn + pstate :=
  let id n := nth n ids (-1) in
  let j := q_proj st in
  let s := j_ses j in
  let proj j' := inr (mkSt j' (q_temp st) (q_steps st)) in
  match k with
  | KPiId => with_int v (fun i => proj (mkProj i (j_piname j) (j_id j) (j_name j) (j_comments j) s))
  | KPiName => proj (mkProj (j_pi j) v (j_id j) (j_name j) (j_comments j) s)
  | KProjId => proj (mkProj (j_pi j) (j_piname j) v (j_name j) (j_comments j) s)
  | KProjTitle => proj (mkProj (j_pi j) (j_piname j) (j_id j) v (j_comments j) s)
  | KProjRempi => proj (mkProj (j_pi j) (j_piname j) (j_id j) (j_name j) v s)
  | KSesId => with_int v (fun i => on_ses (fun s => ses_set s i (s_name s) (s_comments s) (s_cra s) (s_beam s) (s_record s) (s_update s) (s_sch s) (s_exe s) (s_smib s) (s_design s)) st)
  | KSesTitle => on_ses (fun s => ses_set s (s_id s) v (s_comments s) (s_cra s) (s_beam s) (s_record s) (s_update s) (s_sch s) (s_exe s) (s_smib s) (s_design s)) st
  | KSesRempi => on_ses (fun s => ses_set s (s_id s) (s_name s) v (s_cra s) (s_beam s) (s_record s) (s_update s) (s_sch s) (s_exe s) (s_smib s) (s_design s)) st
  | KSesRempo => on_ses (put_method v) st
  | KCra => with_int v (fun i => on_ses (fun s => ses_set s (s_id s) (s_name s) (s_comments s) i (s_beam s) (s_record s) (s_update s) (s_sch s) (s_exe s) (s_smib s) (s_design s)) st)
  | KMrp c => with_int v (fun i => on_ses (fun s => ses_set s (s_id s) (s_name s) (s_comments s) (s_cra s) (s_beam s) (put_mib c i (s_record s)) (s_update s) (s_sch s) (s_exe s) (s_smib s) (s_design s)) st)
  | KMup c => with_int v (fun i => on_ses (fun s => ses_set s (s_id s) (s_name s) (s_comments s) (s_cra s) (s_beam s) (s_record s) (put_mib c i (s_update s)) (s_sch s) (s_exe s) (s_smib s) (s_design s)) st)
  | KLogSch => on_ses (fun s => ses_set s (s_id s) (s_name s) (s_comments s) (s_cra s) (s_beam s) (s_record s) (s_update s) true (s_exe s) (s_smib s) (s_design s)) st
  | KLogExe => on_ses (fun s => ses_set s (s_id s) (s_name s) (s_comments s) (s_cra s) (s_beam s) (s_record s) (s_update s) (s_sch s) true (s_smib s) (s_design s)) st
  | KIncSmib => on_ses (fun s => ses_set s (s_id s) (s_name s) (s_comments s) (s_cra s) (s_beam s) (s_record s) (s_update s) (s_sch s) (s_exe s) true (s_design s)) st
  | KIncDes => on_ses (fun s => ses_set s (s_id s) (s_name s) (s_comments s) (s_cra s) (s_beam s) (s_record s) (s_update s) (s_sch s) (s_exe s) (s_smib s) true) st
  | KBeam => with_int v (fun i => on_ses (fun s => ses_set s (s_id s) (s_name s) (s_comments s) (s_cra s) i (s_record s) (s_update s) (s_sch s) (s_exe s) (s_smib s) (s_design s)) st)
  | KSpc => match put_spc v s with inl e => inl e | inr s' => proj (with_ses j s') end
  | KObsId =>
      match finish st with
      | inl e => inl e
      | inr st' => with_int v (fun i => on_temp (set_id i) st')
      end
  | KTitle => on_temp (set_name v) st
  | KTarget => on_temp (set_target v) st
  | KRempi => on_temp (set_comments v) st
  | KMjd => with_int v (fun i => on_temp (set_mjd i) st)
  | KMpm => with_int v (fun i => on_temp (set_mpm i) st)
  | KDur => with_int v (fun i => on_temp (set_dur i) st)
  | KMode => on_temp (set_mode v) st
  | KBdm => match parse_bdm v with Some b => on_keep (keep_bdm (Some b)) st | None => inr st end
  | KRa => with_float v (fun q => on_temp (set_ra q) st)
  | KDec => with_float v (fun q => on_temp (set_dec q) st)
  | KB => if str_eqb v (tx "SIMPLE") then inr st else on_keep (keep_hdr true) st
  | KFreq1 => with_int v (fun i => on_temp (set_f1 i) st)
  | KFreq2 => with_int v (fun i => on_temp (set_f2 i) st)
  | KBw => with_int v (fun i => on_temp (set_filter i) st)
  | KRadec => with_int v (fun i => on_temp (set_radec (negb (i =? 0))) st)
  | KC1 => with_float v (fun q => on_step (id O) (fun u => inr (mkBt (u_id u) q (u_c2 u) (u_dur u) (u_f1 u) (u_f2 u) (u_hdr u) (u_spec u))) st)
  | KC2 => with_float v (fun q => on_step (id O) (fun u => inr (mkBt (u_id u) (u_c1 u) q (u_dur u) (u_f1 u) (u_f2 u) (u_hdr u) (u_spec u))) st)
  | KT => with_int v (fun i => on_step (id O) (fun u => inr (mkBt (u_id u) (u_c1 u) (u_c2 u) i (u_f1 u) (u_f2 u) (u_hdr u) (u_spec u))) st)
  | KSFreq1 => with_int v (fun i => on_step (id O) (fun u => inr (mkBt (u_id u) (u_c1 u) (u_c2 u) (u_dur u) i (u_f2 u) (u_hdr u) (u_spec u))) st)
  | KSFreq2 => with_int v (fun i => on_step (id O) (fun u => inr (mkBt (u_id u) (u_c1 u) (u_c2 u) (u_dur u) (u_f1 u) i (u_hdr u) (u_spec u))) st)
  | KSB => on_step (id O) (fun u => inr (put_beam v u)) st
  | KDelay => with_int v (fun i => on_step (id O) (put_delay (id 1%nat) i) st)
  | KGain => with_int v (fun i => on_step (id O) (put_gain (id 1%nat) (id 2%nat) (id 3%nat) i) st)
  | KFee => with_int v (fun i => match put_fee (id O) (id 1%nat) i (k_fee (t_keep (q_temp st))) with Some l => on_keep (keep_fee l) st | None => inl IndexError end)
  | KFlt => with_int v (fun i => on_keep (fun k => keep_flt (put_setting (id O) i (k_flt k)) k) st)
  | KAt1 => with_int v (fun i => on_keep (fun k => keep_at1 (put_setting (id O) i (k_at1 k)) k) st)
  | KAt2 => with_int v (fun i => on_keep (fun k => keep_at2 (put_setting (id O) i (k_at2 k)) k) st)
  | KAt3 => with_int v (fun i => on_keep (fun k => keep_at3 (put_setting (id O) i (k_at3 k)) k) st)
  | KSamples => with_int v (fun i => on_temp (set_samples i) st)
  | KDrxGain => with_int v (fun i => on_keep (keep_gain i) st)
  | KForeign => inl RuntimeError
  | KOther => inr st
  end.

Fixpoint run_lines (ls : list str) (st : pstate) : exn + pstate :=
  match ls with
  | [] => inr st
  | s :: r =>
      match lex s with
      | Skip => run_lines r st
      | Bad => inl AttributeError
      | Item key ids v => match apply (keyword_of key) ids v st with inl e => inl e | inr st' => run_lines r st' end
      end
  end.
(** parse_sdf (2122-2548) of the contents of a file; text mode turns carriage returns into newlines. *)
Definition parse_sdf (text : str) : exn + project :=
  match run_lines (split 10 (map (fun c => if c =? 13 then 10 else c) text)) st0 with
  | inl e => inl e
  | inr st => match finish st with inl e => inl e | inr st' => inr (q_proj st') end
  end.
