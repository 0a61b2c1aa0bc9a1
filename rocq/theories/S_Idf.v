(** What should come back from an interferometer definition file. *)
From Coq Require Import Ascii String.
From Coq Require Import List ZArith Bool QArith Qround Qabs.
From Verif Require Import M_Str M_Sdf S_Sdf M_Idf.
Import ListNotations.
Open Scope Z_scope.

(** What the constructors and setters of the objects see to (and what a text file can hold). *)
Definition known_intent (s : str) : Prop := In s [tx "fluxcal"; tx "phasecal"; tx "target"; tx "dummy"].
(** A word in any mixture of capital and small letters. *)
Definition letters_of (v w : str) : Prop := Forall2 (fun x y => x = y \/ (97 <= y <= 122 /\ x = y - 32)) v w.
Record apc_wf (a : apc) : Prop := { w_atarget : clean (a_target a); w_aintent : known_intent (a_intent a); w_acoord : coord_ok true (a_ra a) (a_dec a) }.
Record scan_wf (o : scan) : Prop := {
  w_ntarget : clean (n_target o);
  w_nintent : known_intent (n_intent o);
  w_ncomments : match n_comments o with Some c => clean_or_empty c | None => True end;
  w_nmpm : 0 <= n_mpm o < 86400000;
  w_nto : match n_to o with ToRaDec ra de _ => coord_ok true ra de | _ => True end;
  w_nalts : Forall apc_wf (n_alts o) }.
Record run_wf (r : irun) : Prop := {
  w_rname : clean (r_name r);
  w_rcomments : clean_or_empty (r_comments r);
  w_rmethod : In (r_method r) [tx "UCF"; tx "DRSU"; tx "USB Harddrives"];
  w_rchannels : 16 <= r_channels r <= 32768 /\ Z.even (r_channels r) = true;
  w_rinttime : (1 # 10 <= r_inttime r /\ r_inttime r <= 10)%Q;
  w_rbasis : exists b, In b [tx "linear"; tx "circular"; tx "stokes"] /\ letters_of (r_basis r) b;
  w_rstations : (2 <= length (r_stations r))%nat /\ Forall (fun s => In s [tx "VL"; tx "SV"; tx "NA"; tx "OV"]) (r_stations r);
  w_rscans : Forall scan_wf (r_scans r) }.
Record iproj_wf (j : iproj) : Prop := {
  w_ipiname : clean (i_piname j);
  w_iid : clean (i_id j);
  w_iname : clean (i_name j);
  w_icomments : clean_or_empty (i_comments j);
  w_irun : run_wf (i_run j) }.

(** *** What comes back *)
Definition no_motion (pm : Q * Q) : bool := Qeq_bool (fst pm) 0 && Qeq_bool (snd pm) 0.
(** Proper motions with one decimal. *)
Definition back_pm (pm : Q * Q) : Q * Q := (decimals 1 (fst pm), decimals 1 (snd pm)).
Definition back_note (c : option str) : option str := Some (match c with Some s => back_remarks s | None => back_remarks [] end).
(** What is remembered after a scan: the last proper motion, number of alternate phase centers, gain and filter that were set. *)
Definition after (m : kept) (o : scan) : kept :=
  mkKept (match n_to o with ToRaDec _ _ pm => if no_motion pm then kp_pm m else back_pm pm | _ => kp_pm m end)
         (match n_alts o with [] => kp_nalt m | l => Z.of_nat (length l) end)
         (if n_gain o =? -1 then kp_gain m else n_gain o)
         (if n_asp o =? -1 then kp_asp m else n_asp o).
(** The alternate phase centers: [pm] is the proper motion of the one before. *)
Fixpoint back_alts (pm : Q * Q) (l : list apc) : list apc :=
  match l with
  | [] => []
  | a :: r => let q := if no_motion (a_pm a) then pm else back_pm (a_pm a) in
              mkApc (a_target a) (a_intent a) (decimals 9 (a_ra a)) (decimals 9 (a_dec a)) q :: back_alts q r
  end.
Definition back_scan (m : kept) (o : scan) : exn + scan :=
  let k := after m o in
  match n_alts o, kp_nalt m with
  | [], Zpos _ | [], Zneg _ => inl RuntimeError
  | _, _ => inr (mkScan (n_target o) (n_intent o) (back_note (n_comments o)) (n_mjd o) (n_mpm o) (n_dur o)
                        (match n_to o with ToRaDec ra de _ => ToRaDec (decimals 9 ra) (decimals 9 de) (kp_pm k) | p => p end)
                        (n_f1 o) (n_f2 o) (n_filter o) (kp_gain k) (kp_asp k) (back_alts (0%Q, 0%Q) (n_alts o)))
  end.
Fixpoint back_scans (m : kept) (l : list scan) : exn + list scan :=
  match l with
  | [] => inr []
  | o :: r => match back_scan m o with
              | inl e => inl e
              | inr b => match back_scans (after m o) r with inl e => inl e | inr bs => inr (b :: bs) end
              end
  end.
Definition back_run (r : irun) (l : list scan) : irun :=
  mkRun (r_id r) (r_name r) (back_remarks (r_comments r)) (r_method r) (r_channels r) (decimals 3 (r_inttime r)) (r_basis r) (r_stations r) l.
Definition back_iproj (j : iproj) (l : list scan) : iproj :=
  mkIp (i_pi j) (i_piname j) (i_id j) (i_name j) (back_remarks (i_comments j)) (back_run (i_run j) l).
Definition back_idf (j : iproj) : exn + iproj :=
  match back_scans (mkKept (0%Q, 0%Q) 0 (-1) (-1)) (r_scans (i_run j)) with inl e => inl e | inr l => inr (back_iproj j l) end.

(** *** When everything comes back *)
Definition copy_pm (pm : Q * Q) : Q * Q := if no_motion pm then (0%Q, 0%Q) else back_pm pm.
Definition copy_apc (a : apc) : apc := mkApc (a_target a) (a_intent a) (decimals 9 (a_ra a)) (decimals 9 (a_dec a)) (copy_pm (a_pm a)).
Definition copy_scan (o : scan) : scan :=
  mkScan (n_target o) (n_intent o) (back_note (n_comments o)) (n_mjd o) (n_mpm o) (n_dur o)
         (match n_to o with ToRaDec ra de pm => ToRaDec (decimals 9 ra) (decimals 9 de) (copy_pm pm) | p => p end)
         (n_f1 o) (n_f2 o) (n_filter o) (n_gain o) (n_asp o) (map copy_apc (n_alts o)).
Definition copy_idf (j : iproj) : iproj := back_iproj j (map copy_scan (r_scans (i_run j))).
Definition moves (pm : Q * Q) : Prop := ~ (fst pm == 0 /\ snd pm == 0)%Q.
Definition scan_moves (o : scan) : Prop := match n_to o with ToRaDec _ _ pm => moves pm | _ => False end.
(** What scan [a] sets, the later scan [b] sets as well. *)
Definition sets_too (a b : scan) : Prop :=
  (scan_moves a -> match n_to b with ToRaDec _ _ pm => moves pm | _ => True end) /\
  (n_alts a <> [] -> n_alts b <> []) /\ (n_gain a <> -1 -> n_gain b <> -1) /\ (n_asp a <> -1 -> n_asp b <> -1).
Definition even_scans (l : list scan) : Prop :=
  ForallOrdPairs sets_too l /\ Forall (fun o => ForallOrdPairs (fun a b => moves (a_pm a) -> moves (a_pm b)) (n_alts o)) l.
