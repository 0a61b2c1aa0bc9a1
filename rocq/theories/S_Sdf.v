(** What should come back from a session definition file. *)
From Coq Require Import Ascii String.
From Coq Require Import List ZArith Bool QArith Qround Qabs.
From Verif Require Import M_Str M_Sdf.
Import ListNotations.
Open Scope Z_scope.

(** A text that fits in a line: there is some, it does not begin with a blank, there is no line end in it. *)
Definition clean (s : str) : Prop := match s with [] => False | c :: _ => is_space c = false end /\ ~ In 10 s /\ ~ In 13 s.
Definition clean_or_empty (s : str) : Prop := s = [] \/ clean s.

(** A number with nine (four) decimals: the nearest one. *)
Definition decimals (n : nat) (q : Q) : Q :=
  let p := 10 ^ Z.of_nat n in
  if Qle_bool 0 q then Qmake (half_even (q * inject_Z p)%Q) (Z.to_pos p) else Qopp (Qmake (half_even (- q * inject_Z p)%Q) (Z.to_pos p)).

(** What the constructors and setters of the objects see to (and what a text file can hold). *)
Definition coord_ok (radec : bool) (c1 c2 : Q) : Prop :=
  (0 <= c1 /\ decimals 9 c1 < (if radec then 24 else 360) /\ (if radec then -90 else 0) <= c2 /\ c2 <= 90)%Q.
Definition bdm_ok (b : bdm) : Prop := (0 <= b_stand b /\ 0 <= b_beam b /\ 0 <= b_dipole b)%Q /\ (b_pol b = tx "X" \/ b_pol b = tx "Y").
Record obs_wf (o : obs) : Prop := {
  w_name : clean_or_empty (o_name o);
  w_target : clean_or_empty (o_target o);
  w_comments : clean_or_empty (o_comments o);
  w_mpm : 0 <= o_mpm o < 86400000;
  w_bdm : match o_bdm o with Some b => bdm_ok b | None => True end;
  w_setup : match o_setup o with
            | TBT n => o_dur o = tbt_dur n
            | TRK (RaDec ra de) _ _ _ _ => coord_ok true ra de
            | STEPPED _ _ ss => Forall (fun p => coord_ok (p_radec p) (p_c1 p) (p_c2 p)) ss
            | _ => True
            end }.
Record ses_wf (s : session) : Prop := {
  w_sname : clean (s_name s);
  w_scomments : clean_or_empty (s_comments s);
  w_method : In (s_method s) [tx "UCF"; tx "DRSU"; tx "USB Harddrives"];
  w_spc : 0 <= s_nchan s /\ 0 <= s_nwin s;
  w_record : length (s_record s) = 9%nat;
  w_update : length (s_update s) = 9%nat;
  w_obs : Forall obs_wf (s_obs s) }.
Record proj_wf (j : project) : Prop := {
  w_piname : clean (j_piname j);
  w_pid : clean (j_id j);
  w_pname : clean (j_name j);
  w_pcomments : clean_or_empty (j_comments j);
  w_ses : ses_wf (j_ses j) }.

(** *** What comes back *)
(** Texts: at most 4090 characters of the remarks, and a stand-in for a missing text. *)
Definition back_text (s : str) : str := match s with [] => tx "None provided" | _ => s end.
Definition back_remarks (s : str) : str := back_text (firstn 4090 s).
(** A setting that is -1 ("leave it") comes back as the one before. *)
Definition over (old new : list Z) : list Z := map (fun pv => if snd pv =? -1 then fst pv else snd pv) (combine old new).
(** The same for the two polarizations of an FEE; nothing is written when all are the same and one of the two is -1. *)
Definition over_fee (old new : list (Z * Z)) : list (Z * Z) :=
  let pick p v := if v =? -1 then p else v in
  match new with
  | h :: _ => if forallb (fun f => (fst h =? fst f) && (snd h =? snd f)) new && ((fst h =? -1) || (snd h =? -1)) then old
              else map (fun pv => (pick (fst (fst pv)) (fst (snd pv)), pick (snd (fst pv)) (snd (snd pv)))) (combine old new)
  | [] => old
  end.
(** What is remembered after an observation. *)
Definition remember (m : keep) (o : obs) : keep :=
  mkKeep (k_hdr m || match o_setup o with TRK _ _ _ _ h => h | _ => false end)
         (match o_setup o with TBT _ => k_gain m | _ => if o_gain o =? -1 then k_gain m else o_gain o end)
         (match o_bdm o with Some b => Some (mkBdm (inject_Z (Qfloor (b_stand b))) (decimals 4 (b_beam b)) (decimals 4 (b_dipole b)) (b_pol b)) | None => k_bdm m end)
         (over_fee (k_fee m) (o_fee o)) (over (k_flt m) (o_flt o)) (over (k_at1 m) (o_at1 o)) (over (k_at2 m) (o_at2 o)) (over (k_at3 m) (o_at3 o)).
(** The steps: [h] and [d] are the high-dynamic-range flag and the delays and gains of the step before. *)
Fixpoint back_steps (h : bool) (d : option (list Z * list gain4)) (l : list bstep) : list bstep :=
  match l with
  | [] => []
  | p :: r =>
      let h' := match p_spec p with Some _ => h | None => p_hdr p end in
      let d' := match p_spec p with Some s => Some s | None => d end in
      mkStep (decimals 9 (p_c1 p)) (decimals 9 (p_c2 p)) (p_dur p) (p_f1 p) (p_f2 p) (p_radec p) h' d' :: back_steps h' d' r
  end.
Definition back_setup (m : keep) (s : setup) : setup :=
  match s with
  | TRK (RaDec ra de) f1 f2 f _ => TRK (RaDec (decimals 9 ra) (decimals 9 de)) f1 f2 f (k_hdr m)
  | TRK k f1 f2 f _ => TRK k f1 f2 f (k_hdr m)
  | STEPPED f rd ss => STEPPED f rd (back_steps false None ss)
  | _ => s
  end.
(** [m] is what is remembered including this observation. *)
Definition back_obs (m : keep) (o : obs) : obs :=
  let s := back_setup m (o_setup o) in
  mkObs (back_text (o_name o)) (back_text (o_target o)) (back_remarks (o_comments o)) (o_mjd o) (o_mpm o) (o_dur o) s
        (match o_setup o with TBT _ | TBS _ _ => -1 | _ => k_gain m end)
        (match s with STEPPED _ _ ss => if existsb is_spec ss then None else k_bdm m | _ => k_bdm m end)
        (k_fee m) (k_flt m) (k_at1 m) (k_at2 m) (k_at3 m).
Fixpoint back_all (m : keep) (l : list obs) : list obs :=
  match l with [] => [] | o :: r => let m' := remember m o in back_obs m' o :: back_all m' r end.
Definition nothing_set : keep := mkKeep false (-1) None (repeat (-1, -1) 256) (repeat (-1) 256) (repeat (-1) 256) (repeat (-1) 256) (repeat (-1) 256).
Definition back_ses (s : session) : session :=
  mkSes (s_id s) (s_name s) (back_remarks (s_comments s)) (s_method s) (s_cra s) (s_beam s) (s_nchan s) (s_nwin s) (s_meta s)
        (s_record s) (s_update s) (s_sch s) (s_exe s) (s_smib s) (s_design s) (back_all nothing_set (s_obs s)).
Definition back (j : project) : project := mkProj (j_pi j) (j_piname j) (j_id j) (j_name j) (back_remarks (j_comments j)) (back_ses (j_ses j)).

(** *** When everything comes back *)
(** An observation as it is on paper: nine decimals, a stand-in for a missing text. *)
Definition copy_step (p : bstep) : bstep := mkStep (decimals 9 (p_c1 p)) (decimals 9 (p_c2 p)) (p_dur p) (p_f1 p) (p_f2 p) (p_radec p) (p_hdr p) (p_spec p).
Definition copy_setup (s : setup) : setup :=
  match s with
  | TRK (RaDec ra de) f1 f2 f h => TRK (RaDec (decimals 9 ra) (decimals 9 de)) f1 f2 f h
  | STEPPED f rd ss => STEPPED f rd (map copy_step ss)
  | _ => s
  end.
Definition copy_bdm (b : bdm) : bdm := mkBdm (inject_Z (Qfloor (b_stand b))) (decimals 4 (b_beam b)) (decimals 4 (b_dipole b)) (b_pol b).
Definition copy_obs (o : obs) : obs :=
  mkObs (back_text (o_name o)) (back_text (o_target o)) (back_remarks (o_comments o)) (o_mjd o) (o_mpm o) (o_dur o) (copy_setup (o_setup o)) (o_gain o)
        (option_map copy_bdm (o_bdm o)) (o_fee o) (o_flt o) (o_at1 o) (o_at2 o) (o_at3 o).
Definition copy_ses (s : session) : session :=
  mkSes (s_id s) (s_name s) (back_remarks (s_comments s)) (s_method s) (s_cra s) (s_beam s) (s_nchan s) (s_nwin s) (s_meta s)
        (s_record s) (s_update s) (s_sch s) (s_exe s) (s_smib s) (s_design s) (map copy_obs (s_obs s)).
Definition copy (j : project) : project := mkProj (j_pi j) (j_piname j) (j_id j) (j_name j) (back_remarks (j_comments j)) (copy_ses (j_ses j)).
(** The steps: one with its own delays and gains is followed by such steps only, and has the flag of the step before. *)
Fixpoint steps_steady (h spec : bool) (l : list bstep) : Prop :=
  match l with
  | [] => True
  | p :: r => (spec = true -> is_spec p = true) /\ (is_spec p = true -> p_hdr p = h) /\ steps_steady (p_hdr p) (is_spec p) r
  end.
(** An observation on its own: as many settings as stands, no gain where the parser drops it, no FEEs that are
    alike with only one polarization set. *)
Record steady_alone (o : obs) : Prop := {
  v_fee : length (o_fee o) = 256%nat;
  v_flt : length (o_flt o) = 256%nat;
  v_at1 : length (o_at1 o) = 256%nat;
  v_at2 : length (o_at2 o) = 256%nat;
  v_at3 : length (o_at3 o) = 256%nat;
  v_half : forall f, In f (o_fee o) -> (fst f = -1 /\ snd f <> -1) \/ (fst f <> -1 /\ snd f = -1) -> exists g, In g (o_fee o) /\ g <> f;
  v_setup : match o_setup o with
            | TBT _ | TBS _ _ => o_gain o = -1
            | STEPPED _ _ ss => steps_steady false false ss /\ (existsb is_spec ss = true -> o_bdm o = None)
            | _ => True
            end }.
(** An observation [o] after an observation [p]: what is set for [p] is set for [o]. *)
Record stays_set (p o : obs) : Prop := {
  y_hdr : match o_setup p, o_setup o with TRK _ _ _ _ true, TRK _ _ _ _ false => False | _, _ => True end;
  y_gain : match o_setup p, o_setup o with TBT _, _ | _, TBT _ | _, TBS _ _ => True | _, _ => o_gain o = -1 -> o_gain p = -1 end;
  y_bdm : o_bdm p <> None -> o_bdm o = None -> match o_setup o with STEPPED _ _ ss => existsb is_spec ss = true | _ => False end;
  y_fee1 : forall i, fst (nth i (o_fee o) (0, 0)) = -1 -> fst (nth i (o_fee p) (0, 0)) = -1;
  y_fee2 : forall i, snd (nth i (o_fee o) (0, 0)) = -1 -> snd (nth i (o_fee p) (0, 0)) = -1;
  y_flt : forall i, nth i (o_flt o) 0 = -1 -> nth i (o_flt p) 0 = -1;
  y_at1 : forall i, nth i (o_at1 o) 0 = -1 -> nth i (o_at1 p) 0 = -1;
  y_at2 : forall i, nth i (o_at2 o) 0 = -1 -> nth i (o_at2 p) 0 = -1;
  y_at3 : forall i, nth i (o_at3 o) 0 = -1 -> nth i (o_at3 p) 0 = -1 }.
Definition steady (l : list obs) : Prop := Forall steady_alone l /\ ForallOrdPairs stays_set l.
