(** Model of interferometer definition files, lsl/common/idf.py: the objects, validate(), render() and parse_idf().
    The lines of a file are those of M_Sdf: parse_idf has the same regular expression and the same loop head
    (1258, 1277-1304) as parse_sdf.  Simplifications, as there: one run in the project; the remarks of the project
    office, the UCF user name and the texts that only people read (SCAN_START and the keywords that end in '+') are left
    out; floating-point numbers are rationals and a number read from text is the decimal written there; a duration, a
    tuning word and a start time survive the text forms that lie between the keywords and the objects (1201-1220;
    durations and times: M_SdfTime; tuning words: C27). *)
From Coq Require Import Ascii String.
From Coq Require Import List ZArith Bool QArith Qround Qabs.
From Verif Require Export M_Py M_Str M_Bar M_Sdf.
Import ListNotations.
Open Scope Z_scope.

(** ** Objects *)
(** AlternatePhaseCenter (1037-1045): target, intent, right ascension, declination, proper motion. *)
Record apc := mkApc { a_target : str; a_intent : str; a_ra : Q; a_dec : Q; a_pm : Q * Q }.
(** What is pointed at: DRX (955), Solar (979), Jovian (1008).  The other two are made with the position and the
    proper motion 0, which nothing uses. *)
Inductive pointing := ToRaDec (ra dec : Q) (pm : Q * Q) | ToSun | ToJupiter.
(** Scan (595-630). *)
Record scan := mkScan { n_target : str; n_intent : str; n_comments : option str; n_mjd : Z; n_mpm : Z; n_dur : Z; n_to : pointing;
  n_f1 : Z; n_f2 : Z; n_filter : Z; n_gain : Z; n_asp : Z; n_alts : list apc }.
(** Run (386-405); the stations by their ids. *)
Record irun := mkRun { r_id : Z; r_name : str; r_comments : str; r_method : str; r_channels : Z; r_inttime : Q; r_basis : str; r_stations : list str; r_scans : list scan }.
(** Project (89-113) and Observer. *)
Record iproj := mkIp { i_pi : Z; i_piname : str; i_id : str; i_name : str; i_comments : str; i_run : irun }.

(** ** validate *)
(** Scan.estimate_bytes (806-818): bytes at one station. *)
Definition scan_bytes (o : scan) : Q := (inject_Z (n_dur o) / 1000 * inject_Z (drx_rate (n_filter o)) / 4096 * 4128 * 4)%Q.
(** s.lower() for the letters of ASCII. *)
Definition lower (s : str) : str := map (fun c => if (65 <=? c) && (c <=? 90) then c + 32 else c) s.
Definition intents : list str := map tx ["fluxcal"; "phasecal"; "target"; "dummy"]%string.
Definition bases : list str := map tx ["linear"; "circular"; "stokes"]%string.
Definition MAX_ALT : Z := 10.   (* _MAX_ALT_PHASE_CENTERS, 70 *)

Section Sky.
  (** target_visibility >= 1.0 of a scan (835-869) and of an alternate phase center (1134-1173), and the test of the
      separation (920-925).  The ephemeris is not modelled. *)
  Variable visible : scan -> bool.
  Variable alt_visible alt_near : scan -> apc -> bool.

  (** Scan.validate (871-936).  All stations have the same backend (ndp), so the tuning limits are those of M_Sdf.  The
      size of the beam (922) is a division by the larger tuning frequency. *)
  Definition scan_ok (o : scan) : exn + bool :=
    if match n_alts o with [] => false | _ => Z.max (n_f1 o) (n_f2 o) =? 0 end then inl ZeroDivisionError
    else inr ((1 <=? n_dur o) && between DRX_MIN (n_f1 o) DRX_MAX && tuning2_ok (n_f2 o) && between 1 (n_filter o) 7 && visible o &&
              (Z.of_nat (length (n_alts o)) <=? MAX_ALT) && forallb (fun a => alt_visible o a && alt_near o a) (n_alts o) && fits (scan_bytes o)).
  Fixpoint scans_ok (l : list scan) : exn + bool :=
    match l with
    | [] => inr true
    | o :: r => match scan_ok o with
                | inl e => inl e
                | inr b => match scans_ok r with inl e => inl e | inr c => inr (b && c) end
                end
    end.
  (** No station twice (509-517). *)
  Definition count (s : str) (l : list str) : nat := length (filter (str_eqb s) l).
  Definition stations_once (l : list str) : bool := forallb (fun s => Nat.eqb (count s l) 1) l.
  (** The same filter as the scan before (528-531). *)
  Fixpoint same_filter (l : list scan) : bool :=
    match l with a :: (b :: _) as r => (n_filter b =? n_filter a) && same_filter r | _ => true end.
  (** The overlap check (536-561), as in M_Sdf. *)
  Definition begin (o : scan) : Z := n_mjd o * 24 * 3600 * 1000 + n_mpm o.
  Definition running_scans (l : list scan) (o : scan) : nat := length (filter (fun c => (begin c <=? begin o) && (begin o <? begin c + n_dur c)) l).
  Definition scans_apart (l : list scan) : bool := forallb (fun o => Nat.leb (running_scans l o) 1) l.
  (** Run.validate (496-569): totalData is what all stations record. *)
  Definition run_ok (r : irun) : exn + bool :=
    match scans_ok (r_scans r) with
    | inl e => inl e
    | inr good =>
        let n := Z.of_nat (length (r_stations r)) in
        inr (between 1 (r_id r) 9999 && stations_once (r_stations r) && good && same_filter (r_scans r) && scans_apart (r_scans r) &&
             negb (Qle_bool (inject_Z (n * 10 * 1024 ^ 4)) (fold_right (fun o b => (scan_bytes o * inject_Z n + b)%Q) 0%Q (r_scans r))))
    end.
  (** Project.validate (133-156). *)
  Definition iproj_ok (j : iproj) : exn + bool :=
    match run_ok (i_run j) with inl e => inl e | inr b => inr (Nat.leb (length (i_id j)) 8 && b) end.

  (** ** render *)
  Definition moving (pm : Q * Q) : bool := negb (Qeq_bool (fst pm) 0) || negb (Qeq_bool (snd pm) 0).
  Definition to_text (p : pointing) : str :=
    match p with ToRaDec _ _ _ => tx "TRK_RADEC" | ToSun => tx "TRK_SOL" | ToJupiter => tx "TRK_JOV" end.
  (** 243-248. *)
  Definition to_lines (p : pointing) : list line :=
    match p with
    | ToRaDec ra de pm =>
        [L "SCAN_RA" [] (fix_ false 9 ra); L "SCAN_DEC" [] (fix_ true 9 de)] ++
        (if moving pm then [L "SCAN_PM_RA" [] (fix_ true 1 (fst pm)); L "SCAN_PM_DEC" [] (fix_ true 1 (snd pm))] else [])
    | _ => []
    end.
  (** 259-265. *)
  Definition alt_lines (ia : Z * apc) : list line :=
    let '(i, a) := ia in
    [L "SCAN_ALT_TARGET" [i] (a_target a); L "SCAN_ALT_INTENT" [i] (a_intent a); L "SCAN_ALT_RA" [i] (fix_ false 9 (a_ra a)); L "SCAN_ALT_DEC" [i] (fix_ true 9 (a_dec a))] ++
    (if moving (a_pm a) then [L "SCAN_ALT_PM_RA" [i] (fix_ true 1 (fst (a_pm a))); L "SCAN_ALT_PM_DEC" [i] (fix_ true 1 (snd (a_pm a)))] else []).
  (** obs.comments[:4090] if obs.comments else ... *)
  Definition remarks (o : scan) : str := match n_comments o with Some c => c | None => [] end.
  (** 232-272.  A line without a value is kept as one: the empty target. *)
  Definition scan_lines (io : Z * scan) : list line :=
    let '(i, o) := io in
    [L "SCAN_ID" [] (dec i); L "SCAN_TARGET" [] (n_target o); L "SCAN_INTENT" [] (n_intent o); L "SCAN_REMPI" [] (or_none (firstn 4090 (remarks o)));
     L "SCAN_START_MJD" [] (dec (n_mjd o)); L "SCAN_START_MPM" [] (dec (n_mpm o)); L "SCAN_DUR" [] (dec (n_dur o)); L "SCAN_MODE" [] (to_text (n_to o))] ++
    to_lines (n_to o) ++
    [L "SCAN_FREQ1" [] (dec (n_f1 o)); L "SCAN_FREQ2" [] (dec (n_f2 o)); L "SCAN_BW" [] (dec (n_filter o))] ++
    (match n_alts o with [] => [] | l => L "SCAN_ALT_N" [] (dec (Z.of_nat (length l))) :: flat_map alt_lines (number 1 l) end) ++
    (if n_asp o =? -1 then [] else [L "SCAN_ASP_FLT" [] (dec (n_asp o))]) ++
    (if n_gain o =? -1 then [] else [L "SCAN_DRX_GAIN" [] (dec (n_gain o))]).
  (** 218-225. *)
  Definition run_lines_of (r : irun) : list line :=
    [L "RUN_ID" [] (dec (r_id r)); L "RUN_TITLE" [] (r_name r); L "RUN_STATIONS" [] (join 44 (r_stations r)); L "RUN_CHANNELS" [] (dec (r_channels r));
     L "RUN_INTTIME" [] (fix_ false 3 (r_inttime r)); L "RUN_BASIS" [] (r_basis r); L "RUN_REMPI" [] (or_none (firstn 4090 (r_comments r)));
     L "RUN_REMPO" [] (tx "Requested data return method is " ++ r_method r)].
  (** 206-215. *)
  Definition iproj_lines (j : iproj) : list line :=
    [L "PI_ID" [] (dec (i_pi j)); L "PI_NAME" [] (i_piname j); L "PROJECT_ID" [] (i_id j); L "PROJECT_TITLE" [] (i_name j);
     L "PROJECT_REMPI" [] (or_none (firstn 4090 (i_comments j)))] ++
    run_lines_of (i_run j) ++ flat_map scan_lines (number 1 (r_scans (i_run j))).
  (** scans.sort() (173; __lt__, 946-952), as in M_Sdf. *)
  Fixpoint insert_scan (o : scan) (l : list scan) : list scan :=
    match l with [] => [o] | c :: r => if begin o <=? begin c then o :: l else c :: insert_scan o r end.
  Definition sort_scans (l : list scan) : list scan := fold_right insert_scan [] l.
  Definition with_scans (r : irun) (l : list scan) : irun :=
    mkRun (r_id r) (r_name r) (r_comments r) (r_method r) (r_channels r) (r_inttime r) (r_basis r) (r_stations r) l.
  Definition with_run (j : iproj) (r : irun) : iproj := mkIp (i_pi j) (i_piname j) (i_id j) (i_name j) (i_comments j) r.
  Definition in_order (j : iproj) : iproj := with_run j (with_scans (i_run j) (sort_scans (r_scans (i_run j)))).
  (** Project.render (163-275). *)
  Definition render_idf (j : iproj) : exn + str :=
    match iproj_ok j with
    | inl e => inl e
    | inr false => inl RuntimeError
    | inr true => inr (flat_map text_of (iproj_lines (in_order j)))
    end.
End Sky.

(** ** parse_idf *)
Inductive ikwd :=
| JPiId | JPiName | JProjId | JProjTitle | JProjRempi | JRunId | JRunTitle | JStations | JChannels | JInttime | JBasis | JRunRempi | JRunRempo
| JScanId | JTarget | JIntent | JRempi | JMjd | JMpm | JDur | JMode | JRa | JDec | JPmRa | JPmDec | JFreq1 | JFreq2 | JBw
| JAltN | JAltTarget | JAltIntent | JAltRa | JAltDec | JAltPmRa | JAltPmDec | JAsp | JGain | JForeign | JOther.
Definition ikwd_table : list (string * ikwd) :=
  [("PI_ID", JPiId); ("PI_NAME", JPiName); ("PROJECT_ID", JProjId); ("PROJECT_TITLE", JProjTitle); ("PROJECT_REMPI", JProjRempi);
   ("RUN_ID", JRunId); ("RUN_TITLE", JRunTitle); ("RUN_STATIONS", JStations); ("RUN_CHANNELS", JChannels); ("RUN_INTTIME", JInttime);
   ("RUN_BASIS", JBasis); ("RUN_REMPI", JRunRempi); ("RUN_REMPO", JRunRempo);
   ("SCAN_ID", JScanId); ("SCAN_TARGET", JTarget); ("SCAN_INTENT", JIntent); ("SCAN_REMPI", JRempi); ("SCAN_START_MJD", JMjd);
   ("SCAN_START_MPM", JMpm); ("SCAN_DUR", JDur); ("SCAN_MODE", JMode); ("SCAN_RA", JRa); ("SCAN_DEC", JDec); ("SCAN_PM_RA", JPmRa);
   ("SCAN_PM_DEC", JPmDec); ("SCAN_FREQ1", JFreq1); ("SCAN_FREQ2", JFreq2); ("SCAN_BW", JBw); ("SCAN_ALT_N", JAltN);
   ("SCAN_ALT_TARGET", JAltTarget); ("SCAN_ALT_INTENT", JAltIntent); ("SCAN_ALT_RA", JAltRa); ("SCAN_ALT_DEC", JAltDec);
   ("SCAN_ALT_PM_RA", JAltPmRa); ("SCAN_ALT_PM_DEC", JAltPmDec); ("SCAN_ASP_FLT", JAsp); ("SCAN_DRX_GAIN", JGain);
   ("SESSION_ID", JForeign); ("SESSION_DRX_BEAM", JForeign)]%string.
Fixpoint find_ikwd (k : str) (l : list (string * ikwd)) : ikwd :=
  match l with [] => JOther | (n, w) :: r => if str_eqb k (tx n) then w else find_ikwd k r end.
(** The chain of tests (1306-1524); PROJECT_REMPO and SCAN_REMPO only fill the remarks of the project office. *)
Definition ikeyword_of (k : str) : ikwd := find_ikwd k ikwd_table.

(** obs_temp (1270-1272), in parts: what every scan sets, and what it may leave (proper motion, number of alternate
    phase centers, gain, filter of the analog signal processor). *)
Record kept := mkKept { kp_pm : Q * Q; kp_nalt : Z; kp_gain : Z; kp_asp : Z }.
Record stemp := mkStemp { v_id : Z; v_target : str; v_intent : str; v_comments : option str; v_mjd : option Z; v_mpm : option Z; v_dur : option Z; v_mode : str;
  v_ra : Q; v_dec : Q; v_f1 : Z; v_f2 : Z; v_filter : Z; v_kept : kept }.
Definition kept0 : kept := mkKept (0%Q, 0%Q) 0 (-1) (-1).
Definition stemp0 : stemp := mkStemp 0 [] [] None None None None [] 0 0 0 0 0 kept0.
(** alt_temp (1273). *)
Record atemp := mkAt { b_id : Z; b_apc : apc }.
Definition apc0 : apc := mkApc [] [] 0 0 (0%Q, 0%Q).

Definition v_set_id v t := mkStemp v (v_target t) (v_intent t) (v_comments t) (v_mjd t) (v_mpm t) (v_dur t) (v_mode t) (v_ra t) (v_dec t) (v_f1 t) (v_f2 t) (v_filter t) (v_kept t).
Definition v_set_target v t := mkStemp (v_id t) v (v_intent t) (v_comments t) (v_mjd t) (v_mpm t) (v_dur t) (v_mode t) (v_ra t) (v_dec t) (v_f1 t) (v_f2 t) (v_filter t) (v_kept t).
Definition v_set_intent v t := mkStemp (v_id t) (v_target t) v (v_comments t) (v_mjd t) (v_mpm t) (v_dur t) (v_mode t) (v_ra t) (v_dec t) (v_f1 t) (v_f2 t) (v_filter t) (v_kept t).
Definition v_set_comments v t := mkStemp (v_id t) (v_target t) (v_intent t) v (v_mjd t) (v_mpm t) (v_dur t) (v_mode t) (v_ra t) (v_dec t) (v_f1 t) (v_f2 t) (v_filter t) (v_kept t).
Definition v_set_mjd v t := mkStemp (v_id t) (v_target t) (v_intent t) (v_comments t) (Some v) (v_mpm t) (v_dur t) (v_mode t) (v_ra t) (v_dec t) (v_f1 t) (v_f2 t) (v_filter t) (v_kept t).
Definition v_set_mpm v t := mkStemp (v_id t) (v_target t) (v_intent t) (v_comments t) (v_mjd t) (Some v) (v_dur t) (v_mode t) (v_ra t) (v_dec t) (v_f1 t) (v_f2 t) (v_filter t) (v_kept t).
Definition v_set_dur v t := mkStemp (v_id t) (v_target t) (v_intent t) (v_comments t) (v_mjd t) (v_mpm t) (Some v) (v_mode t) (v_ra t) (v_dec t) (v_f1 t) (v_f2 t) (v_filter t) (v_kept t).
Definition v_set_mode v t := mkStemp (v_id t) (v_target t) (v_intent t) (v_comments t) (v_mjd t) (v_mpm t) (v_dur t) v (v_ra t) (v_dec t) (v_f1 t) (v_f2 t) (v_filter t) (v_kept t).
Definition v_set_ra v t := mkStemp (v_id t) (v_target t) (v_intent t) (v_comments t) (v_mjd t) (v_mpm t) (v_dur t) (v_mode t) v (v_dec t) (v_f1 t) (v_f2 t) (v_filter t) (v_kept t).
Definition v_set_dec v t := mkStemp (v_id t) (v_target t) (v_intent t) (v_comments t) (v_mjd t) (v_mpm t) (v_dur t) (v_mode t) (v_ra t) v (v_f1 t) (v_f2 t) (v_filter t) (v_kept t).
Definition v_set_f1 v t := mkStemp (v_id t) (v_target t) (v_intent t) (v_comments t) (v_mjd t) (v_mpm t) (v_dur t) (v_mode t) (v_ra t) (v_dec t) v (v_f2 t) (v_filter t) (v_kept t).
Definition v_set_f2 v t := mkStemp (v_id t) (v_target t) (v_intent t) (v_comments t) (v_mjd t) (v_mpm t) (v_dur t) (v_mode t) (v_ra t) (v_dec t) (v_f1 t) v (v_filter t) (v_kept t).
Definition v_set_filter v t := mkStemp (v_id t) (v_target t) (v_intent t) (v_comments t) (v_mjd t) (v_mpm t) (v_dur t) (v_mode t) (v_ra t) (v_dec t) (v_f1 t) (v_f2 t) v (v_kept t).
Definition v_set_kept v t := mkStemp (v_id t) (v_target t) (v_intent t) (v_comments t) (v_mjd t) (v_mpm t) (v_dur t) (v_mode t) (v_ra t) (v_dec t) (v_f1 t) (v_f2 t) (v_filter t) v.

(** The setters of intent, ra and dec (658-662, 727-753, 1054-1094). *)
Definition put_intent (v : str) : exn + str := if existsb (str_eqb (lower v)) intents then inr (lower v) else inl ValueError.
Definition radec_ok (ra de : Q) : bool := negb (negb (Qle_bool 0 ra) || Qle_bool 24 ra) && negb (negb (Qle_bool (-90) de) || negb (Qle_bool de 90)).
(** AlternatePhaseCenter(...), 1040-1045. *)
Definition make_apc (a : apc) : exn + apc :=
  match put_intent (a_intent a) with
  | inl e => inl e
  | inr i => if radec_ok (a_ra a) (a_dec a) then inr (mkApc (a_target a) i (a_ra a) (a_dec a) (a_pm a)) else inl ValueError
  end.
Fixpoint make_apcs (l : list atemp) : exn + list apc :=
  match l with
  | [] => inr []
  | a :: r => match make_apc (b_apc a) with
              | inl e => inl e
              | inr x => match make_apcs r with inl e => inl e | inr xs => inr (x :: xs) end
              end
  end.
(** _parse_create_scan_object (1192-1247): KeyError without a start, NameError (durString) without a duration. *)
Definition create_scan (t : stemp) (us : list atemp) : exn + scan :=
  let k := v_kept t in
  match v_mjd t, v_mpm t with
  | Some mjd, Some mpm =>
      let '(day, ms) := norm_start mjd mpm in
      let make (p : pointing) (ra de : Q) : exn + scan :=
        match v_dur t with
        | None => inl NameError
        | Some d =>
            match put_intent (v_intent t) with
            | inl e => inl e
            | inr i =>
                if negb (radec_ok ra de) then inl ValueError
                else if negb (kp_nalt k =? Z.of_nat (length us)) then inl RuntimeError
                else match make_apcs us with
                     | inl e => inl e
                     | inr xs => inr (mkScan (v_target t) i (v_comments t) day ms d p (v_f1 t) (v_f2 t) (v_filter t) (kp_gain k) (kp_asp k) xs)
                     end
            end
        end in
      if str_eqb (v_mode t) (tx "TRK_RADEC") then make (ToRaDec (v_ra t) (v_dec t) (kp_pm k)) (v_ra t) (v_dec t)
      else if str_eqb (v_mode t) (tx "TRK_SOL") then make ToSun 0%Q 0%Q
      else if str_eqb (v_mode t) (tx "TRK_JOV") then make ToJupiter 0%Q 0%Q
      else inl RuntimeError
  | _, _ => inl KeyError
  end.

(** The state of the loop: the project read so far, obs_temp, alt_temps. *)
Record istate := mkIs { z_proj : iproj; z_temp : stemp; z_alts : list atemp }.
(** get_all_stations() (stations.py 1959-1968) by their ids (STATION_ID in lsl/data/*-ssmif.txt), and OVRO-LWA (1930). *)
Definition all_ids : list str := map tx ["VL"; "SV"; "NA"]%string.
Definition plus_ids : list str := map tx ["VL"; "SV"; "NA"; "OV"]%string.
Definition run0 : irun := mkRun 0 (tx "run_name") [] (tx "DRSU") 512 1 (tx "linear") all_ids [].
Definition iproj0 : iproj := mkIp 0 (tx "observer_name") (tx "project_id") (tx "project_name") [] run0.
Definition is0 : istate := mkIs iproj0 stemp0 [].

Definition on_stemp (f : stemp -> stemp) (st : istate) : exn + istate := inr (mkIs (z_proj st) (f (z_temp st)) (z_alts st)).
Definition on_kept (f : kept -> kept) (st : istate) : exn + istate := on_stemp (fun t => v_set_kept (f (v_kept t)) t) st.
Definition on_run (f : irun -> exn + irun) (st : istate) : exn + istate :=
  match f (i_run (z_proj st)) with inl e => inl e | inr r => inr (mkIs (with_run (z_proj st) r) (z_temp st) (z_alts st)) end.
(** RUN_STATIONS (1336-1351). *)
Fixpoint pick_stations (fields : list str) (acc : list str) : list str :=
  match fields with
  | [] => acc
  | f :: r => let g := strip f in
              if str_eqb (lower g) (tx "all") then all_ids
              else pick_stations r (if existsb (str_eqb g) plus_ids then acc ++ [g] else acc)
  end.
(** The setters of Run: stations (417-426), correlator_channels (440-446), correlator_inttime (455-461), correlator_basis (469-474). *)
Definition put_stations (v : str) (r : irun) : exn + irun :=
  let l := pick_stations (split 44 v) [] in
  if Nat.ltb (length l) 2 then inl ValueError
  else inr (mkRun (r_id r) (r_name r) (r_comments r) (r_method r) (r_channels r) (r_inttime r) (r_basis r) l (r_scans r)).
Definition put_channels (n : Z) (r : irun) : exn + irun :=
  if (n <? 16) || (32768 <? n) || negb (n mod 2 =? 0) then inl ValueError
  else inr (mkRun (r_id r) (r_name r) (r_comments r) (r_method r) n (r_inttime r) (r_basis r) (r_stations r) (r_scans r)).
Definition put_inttime (q : Q) (r : irun) : exn + irun :=
  if negb (Qle_bool (1 # 10) q) || negb (Qle_bool q 10) then inl ValueError
  else inr (mkRun (r_id r) (r_name r) (r_comments r) (r_method r) (r_channels r) q (r_basis r) (r_stations r) (r_scans r)).
Definition put_basis (v : str) (r : irun) : exn + irun :=
  if existsb (str_eqb (lower v)) bases then inr (mkRun (r_id r) (r_name r) (r_comments r) (r_method r) (r_channels r) (r_inttime r) v (r_stations r) (r_scans r))
  else inl ValueError.
(** RUN_REMPO (1369-1385). *)
Definition put_return (v : str) (r : irun) : irun :=
  let first := before_semi v in
  if str_eqb (firstn 31 first) (tx "Requested data return method is")
  then mkRun (r_id r) (r_name r) (r_comments r) (skipn 32 first) (r_channels r) (r_inttime r) (r_basis r) (r_stations r) (r_scans r)
  else r.
Definition run_set (r : irun) (id : Z) (name comments : str) : irun :=
  mkRun id name comments (r_method r) (r_channels r) (r_inttime r) (r_basis r) (r_stations r) (r_scans r).
Definition add_scan (o : scan) (r : irun) : irun := with_scans r (r_scans r ++ [o]).
(** The creation of the scan that is complete (1389-1392, 1527-1529); alt_temps is emptied, obs_temp is not. *)
Definition finish_scan (st : istate) : exn + istate :=
  if v_id (z_temp st) =? 0 then inr st
  else match create_scan (z_temp st) (z_alts st) with
       | inl e => inl e
       | inr o => inr (mkIs (with_run (z_proj st) (add_scan o (i_run (z_proj st)))) (z_temp st) [])
       end.
(** alt_temps[-1] for an index (1449-1514): SCAN_ALT_TARGET makes a new one from the one before, the others from alt_temp. *)
Definition touch_alt (like_last : bool) (id : Z) (us : list atemp) : list atemp :=
  match rev us with
  | [] => [mkAt id apc0]
  | u :: _ => if b_id u =? id then us else us ++ [mkAt id (if like_last then b_apc u else apc0)]
  end.
Fixpoint change_last (f : apc -> apc) (us : list atemp) : list atemp :=
  match us with [] => [] | [u] => [mkAt (b_id u) (f (b_apc u))] | u :: r => u :: change_last f r end.
Definition on_alt (like_last : bool) (id : Z) (f : apc -> apc) (st : istate) : exn + istate :=
  inr (mkIs (z_proj st) (z_temp st) (change_last f (touch_alt like_last id (z_alts st)))).

(** The body of the loop for a keyword, its indices and the value (1306-1524). *)
Definition iapply (k : ikwd) (ids : list Z) (v : str) (st : istate) : exn + istate :=
  let id := nth 0 ids (-1) in
  let j := z_proj st in
  let proj j' := inr (mkIs j' (z_temp st) (z_alts st)) in
  match k with
  | JPiId => with_int v (fun i => proj (mkIp i (i_piname j) (i_id j) (i_name j) (i_comments j) (i_run j)))
  | JPiName => proj (mkIp (i_pi j) v (i_id j) (i_name j) (i_comments j) (i_run j))
  | JProjId => proj (mkIp (i_pi j) (i_piname j) v (i_name j) (i_comments j) (i_run j))
  | JProjTitle => proj (mkIp (i_pi j) (i_piname j) (i_id j) v (i_comments j) (i_run j))
  | JProjRempi => proj (mkIp (i_pi j) (i_piname j) (i_id j) (i_name j) v (i_run j))
  | JRunId => with_int v (fun i => on_run (fun r => inr (run_set r i (r_name r) (r_comments r))) st)
  | JRunTitle => on_run (fun r => inr (run_set r (r_id r) v (r_comments r))) st
  | JStations => on_run (put_stations v) st
  | JChannels => with_int v (fun i => on_run (put_channels i) st)
  | JInttime => with_float v (fun q => on_run (put_inttime q) st)
  | JBasis => on_run (put_basis v) st
  | JRunRempi => on_run (fun r => inr (run_set r (r_id r) (r_name r) v)) st
  | JRunRempo => on_run (fun r => inr (put_return v r)) st
  | JScanId => match finish_scan st with inl e => inl e | inr st' => with_int v (fun i => on_stemp (v_set_id i) st') end
  | JTarget => on_stemp (v_set_target v) st
  | JIntent => on_stemp (v_set_intent v) st
  | JRempi => on_stemp (v_set_comments (Some v)) st
  | JMjd => with_int v (fun i => on_stemp (v_set_mjd i) st)
  | JMpm => with_int v (fun i => on_stemp (v_set_mpm i) st)
  | JDur => with_int v (fun i => on_stemp (v_set_dur i) st)
  | JMode => on_stemp (v_set_mode v) st
  | JRa => with_float v (fun q => on_stemp (v_set_ra q) st)
  | JDec => with_float v (fun q => on_stemp (v_set_dec q) st)
  | JPmRa => with_float v (fun q => on_kept (fun k => mkKept (q, snd (kp_pm k)) (kp_nalt k) (kp_gain k) (kp_asp k)) st)
  | JPmDec => with_float v (fun q => on_kept (fun k => mkKept (fst (kp_pm k), q) (kp_nalt k) (kp_gain k) (kp_asp k)) st)
  | JFreq1 => with_int v (fun i => on_stemp (v_set_f1 i) st)
  | JFreq2 => with_int v (fun i => on_stemp (v_set_f2 i) st)
  | JBw => with_int v (fun i => on_stemp (v_set_filter i) st)
  | JAltN => with_int v (fun i => on_kept (fun k => mkKept (kp_pm k) i (kp_gain k) (kp_asp k)) st)
  | JAltTarget => on_alt true id (fun a => mkApc v (a_intent a) (a_ra a) (a_dec a) (a_pm a)) st
  | JAltIntent => on_alt false id (fun a => mkApc (a_target a) v (a_ra a) (a_dec a) (a_pm a)) st
  | JAltRa => with_float v (fun q => on_alt false id (fun a => mkApc (a_target a) (a_intent a) q (a_dec a) (a_pm a)) st)
  | JAltDec => with_float v (fun q => on_alt false id (fun a => mkApc (a_target a) (a_intent a) (a_ra a) q (a_pm a)) st)
  | JAltPmRa => with_float v (fun q => on_alt false id (fun a => mkApc (a_target a) (a_intent a) (a_ra a) (a_dec a) (q, snd (a_pm a))) st)
  | JAltPmDec => with_float v (fun q => on_alt false id (fun a => mkApc (a_target a) (a_intent a) (a_ra a) (a_dec a) (fst (a_pm a), q)) st)
  | JAsp => with_int v (fun i => on_kept (fun k => mkKept (kp_pm k) (kp_nalt k) (kp_gain k) i) st)
  | JGain => with_int v (fun i => on_kept (fun k => mkKept (kp_pm k) (kp_nalt k) i (kp_asp k)) st)
  | JForeign => inl RuntimeError
  | JOther => inr st
  end.
(** The loop (1278-1524). *)
Fixpoint run_idf (ls : list str) (st : istate) : exn + istate :=
  match ls with
  | [] => inr st
  | l :: r => match lex l with
              | Skip => run_idf r st
              | Bad => inl AttributeError
              | Item k ids v => match iapply (ikeyword_of k) ids v st with inl e => inl e | inr st' => run_idf r st' end
              end
  end.
(** parse_idf (1250-1532); lines end in \n, \r\n or \r (universal newlines). *)
Definition parse_idf (text : str) : exn + iproj :=
  match run_idf (split 10 (map (fun c => if c =? 13 then 10 else c) text)) is0 with
  | inl e => inl e
  | inr st => match finish_scan st with inl e => inl e | inr st' => inr (z_proj st') end
  end.

(** ** generate_sdfs *)
(** What the project office has said: an entry for the run, and how many entries for its scans. *)
Record office := mkOffice { f_runs : bool; f_scans : option Z }.
(** sdf.Observation as the constructors leave it (sdf.py 529-583). *)
Definition fresh_obs (name target comments : str) (mjd mpm dur : Z) (s : setup) (gain : Z) : obs :=
  mkObs name target comments mjd mpm dur s gain None (repeat (-1, -1) NSTD) (repeat (-1) NSTD) (repeat (-1) NSTD) (repeat (-1) NSTD) (repeat (-1) NSTD).
Section Generate.
  (** 1/cos of an angle in degrees. *)
  Variable sec : Q -> Q.
  (** Years since 2000 (328-330), and where the target is then. *)
  Definition epoch (o : scan) : Q := ((inject_Z (n_mjd o) + inject_Z (n_mpm o) / 1000 / 86400 - (515445 # 10)) / (36525 # 100))%Q.
  Definition moved (o : scan) (ra de : Q) (pm : Q * Q) : Q * Q :=
    ((ra + epoch o * fst pm * sec de / 1000 / 3600 / 15)%Q, (de + epoch o * snd pm / 1000 / 3600)%Q).
  Definition pm_note (pm : Q * Q) : str :=
    tx ";;Applied proper motion of " ++ fix_ true 1 (fst pm) ++ tx " mas/yr in RA and " ++ fix_ true 1 (snd pm) ++ tx " mas/yr in dec".
  (** The observation for a scan (323-351): '' + None is a TypeError (333-335), sdf.DRX checks the position. *)
  Definition scan_obs (o : scan) : exn + obs :=
    match n_to o with
    | ToRaDec ra de pm =>
        let '(r, d) := moved o ra de pm in
        match n_comments o with
        | None => inl TypeError
        | Some c =>
            if negb (Qle_bool 0 r) || Qle_bool 24 r then inl ValueError
            else if negb (Qle_bool (-90) d) || negb (Qle_bool d 90) then inl NameError
            else inr (fresh_obs (n_intent o) (n_target o) (if moving pm then c ++ pm_note pm else c) (n_mjd o) (n_mpm o) (n_dur o)
                                (TRK (RaDec r d) (n_f1 o) (n_f2 o) (n_filter o) false) (n_gain o))
        end
    | ToSun => inr (fresh_obs (n_intent o) (n_target o) (remarks o) (n_mjd o) (n_mpm o) (n_dur o) (TRK Sun (n_f1 o) (n_f2 o) (n_filter o) false) (n_gain o))
    | ToJupiter => inr (fresh_obs (n_intent o) (n_target o) (remarks o) (n_mjd o) (n_mpm o) (n_dur o) (TRK Jupiter (n_f1 o) (n_f2 o) (n_filter o) false) (n_gain o))
    end.
  (** The loop over the scans (322-372); alternate phase centers go to the entry of the project office, which has to be there
      (365-368: the assignment after the IndexError is one as well). *)
  Fixpoint scan_obss (entries : Z) (k : Z) (l : list scan) : exn + list obs :=
    match l with
    | [] => inr []
    | o :: r => match scan_obs o with
                | inl e => inl e
                | inr b => if match n_alts o with [] => false | _ => entries <=? k end then inl IndexError
                           else match scan_obss entries (k + 1) r with inl e => inl e | inr bs => inr (b :: bs) end
                end
    end.
  (** One station (307-379): [i] of [n].  The texts of the project office and the UCF user name are left out. *)
  Definition of_text (name station : str) (i n : Z) : str := name ++ tx " - " ++ station ++ tx " (" ++ dec i ++ tx " of " ++ dec n ++ tx ")".
  Definition station_sdf (j : iproj) (f : office) (sid : Z) (i : Z) (station : str) : exn + project :=
    let r := i_run j in
    let n := Z.of_nat (length (r_stations r)) in
    if negb (f_runs f) then inl IndexError
    else match f_scans f with
         | None => inl IndexError
         | Some entries =>
             match scan_obss entries 0 (r_scans r) with
             | inl e => inl e
             | inr bs => inr (mkProj (i_pi j) (i_piname j) (i_id j) (of_text (i_name j) station i n) (i_comments j)
                               (mkSes sid (of_text (r_name r) station i n) [] (tx "UCF") 0 1 0 0 [] (repeat (-1) 9) (repeat (-1) 9) false false true false bs))
             end
         end.
  Fixpoint station_sdfs (j : iproj) (f : office) (sid i : Z) (l : list str) : exn + list project :=
    match l with
    | [] => inr []
    | s :: r => match station_sdf j f sid i s with
                | inl e => inl e
                | inr p => match station_sdfs j f (sid + 1) (i + 1) r with inl e => inl e | inr ps => inr (p :: ps) end
                end
    end.
  (** generate_sdfs (288-382): the scans are put in order, the first one gives the date. *)
  Definition generate_sdfs (visible : scan -> bool) (alt_visible alt_near : scan -> apc -> bool) (f : office) (sid : Z) (j : iproj) : exn + list project :=
    match iproj_ok visible alt_visible alt_near j with
    | inl e => inl e
    | inr false => inl RuntimeError
    | inr true => match r_scans (i_run (in_order j)) with
                  | [] => inl IndexError
                  | _ => station_sdfs (in_order j) f sid 1 (r_stations (i_run j))
                  end
    end.
End Generate.
