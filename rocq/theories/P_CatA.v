(** Proofs about the LWA catalog file. *)
From Coq Require Import List ZArith Lia Bool.
From Verif Require Import M_Cat S_Cat P_Str P_Cat.
Import ListNotations.
Open Scope Z_scope.

Lemma mk_hms_ok : forall F h m (x : flt F), time_ok h m x -> mk_hms h m x = Ok (mkHms h m x).
Proof.
  intros F h m x (H & M & X). unfold mk_hms. destruct (Z.ltb_spec h 0); [lia|]. destruct (Z.ltb_spec 23 h); [lia|].
  destruct (Z.ltb_spec m 0); [lia|]. destruct (Z.ltb_spec 59 m); [lia|]. cbn [orb]. rewrite X. reflexivity.
Qed.
Lemma mk_dms_ok : forall F n d m (x : flt F), angle_ok d m x -> mk_dms n d m x = Ok (mkDms n d m x).
Proof.
  intros F n h m x (H & M & X). unfold mk_dms. destruct (Z.ltb_spec h 0); [lia|]. destruct (Z.ltb_spec 359 h); [lia|].
  destruct (Z.ltb_spec m 0); [lia|]. destruct (Z.ltb_spec 59 m); [lia|]. cbn [orb]. rewrite X. reflexivity.
Qed.
Lemma mk_hms_bad : forall F h m (x : flt F), ~ time_ok h m x -> mk_hms h m x = Raise ValueError.
Proof.
  intros F h m x H. unfold mk_hms, time_ok in *. destruct (Z.ltb_spec h 0); [reflexivity|]. destruct (Z.ltb_spec 23 h); [reflexivity|].
  destruct (Z.ltb_spec m 0); [reflexivity|]. destruct (Z.ltb_spec 59 m); [reflexivity|]. cbn [orb].
  destruct (sec_bad F x); [reflexivity|]. destruct H. repeat split; lia.
Qed.
Lemma mk_dms_bad : forall F n h m (x : flt F), ~ angle_ok h m x -> mk_dms n h m x = Raise ValueError.
Proof.
  intros F n h m x H. unfold mk_dms, angle_ok in *. destruct (Z.ltb_spec h 0); [reflexivity|]. destruct (Z.ltb_spec 359 h); [reflexivity|].
  destruct (Z.ltb_spec m 0); [reflexivity|]. destruct (Z.ltb_spec 59 m); [reflexivity|]. cbn [orb].
  destruct (sec_bad F x); [reflexivity|]. destruct H. repeat split; lia.
Qed.

Lemma lwa_line_skip : forall F l, lwa_skipped l -> lwa_line F l = Ok None.
Proof.
  intros F l [(r & ->)|(N & H)]; [reflexivity|]. unfold lwa_line. replace (isspace l) with true; [rewrite orb_true_r; reflexivity|].
  unfold isspace. destruct l as [|c l]; [congruence|]. symmetry. apply forallb_forall. unfold all_space in H. rewrite Forall_forall in H. exact H.
Qed.
Lemma lwa_line_source : forall F l (s : source F), lwa_source l s -> lwa_line F l = Ok (Some (src_entry s)).
Proof.
  intros F l s (name & h & m & xs & x & sg & n & d & dm & dxs & dx & al & pad & En & Ea & Ec & -> & L8 & Nn & NS & N35 & L5 & Fx & L4 & Fd & Sg & Rd & C & Al & Pad).
  destruct s as [sn sa sc]. cbn [s_name s_also s_at] in *. subst sn sa sc. cbn [coords_ok] in C. destruct C as (T & A & P).
  assert (R0 : rstrip (name ++ blanks (8 - length name)) = name).
  { apply rstrip_spaces; [exact NS|]. unfold blanks, all_space. apply Forall_forall. intros c I. apply repeat_spec in I. subst. reflexivity. }
  set (name8 := name ++ blanks (8 - length name)) in *.
  assert (LN : length name8 = 8%nat) by (unfold name8, blanks; rewrite app_length, repeat_length; lia).
  assert (H0 : exists c0 r, name8 = c0 :: r /\ is_space c0 = false /\ c0 <> 35).
  { unfold name8. destruct name as [|c r]; [congruence|]. exists c, (r ++ blanks (8 - length (c :: r))). split; [reflexivity|]. split; [exact (Forall_inv NS)|exact N35]. }
  replace (name ++ blanks (8 - length name) ++ [32] ++ two h ++ [32] ++ two m ++ [32] ++ xs ++ [32] ++ [sg] ++ two d ++ [32] ++ two dm ++ [32] ++ dxs ++ [32; 32] ++ flat_map (fun a => a ++ [32]) al ++ pad ++ [10])
    with (name8 ++ [32] ++ two h ++ [32] ++ two m ++ [32] ++ xs ++ [32] ++ [sg] ++ two d ++ [32] ++ two dm ++ [32] ++ dxs ++ [32; 32] ++ flat_map (fun a => a ++ [32]) al ++ pad ++ [10])
    by (unfold name8; rewrite <- app_assoc; reflexivity).
  clearbody name8.
  assert (W : words (flat_map (fun a => a ++ [32]) al ++ pad ++ [10]) = al).
  { apply words_list; [exact Al|]. apply Forall_app. split; [exact Pad|constructor; [reflexivity|constructor]]. }
  set (tl := flat_map (fun a => a ++ [32]) al ++ pad ++ [10]) in *. clearbody tl.
  assert (Ph := two_parse h). assert (Pm := two_parse m). assert (Pd := two_parse d). assert (Pdm := two_parse dm).
  destruct T as (T1 & T2 & T3). destruct A as (A1 & A2 & A3).
  specialize (Ph ltac:(lia)). specialize (Pm ltac:(lia)). specialize (Pd ltac:(lia)). specialize (Pdm ltac:(lia)).
  unfold two in *. set (ha := 48 + h / 10) in *. set (hb := 48 + h mod 10) in *. set (ma := 48 + m / 10) in *. set (mb := 48 + m mod 10) in *.
  set (da := 48 + d / 10) in *. set (db := 48 + d mod 10) in *. set (ea := 48 + dm / 10) in *. set (eb := 48 + dm mod 10) in *.
  clearbody ha hb ma mb da db ea eb.
  destruct H0 as (c0 & r0 & -> & S0 & N0).
  do 7 (destruct r0 as [|? r0]; [discriminate|]). destruct r0; [|discriminate].
  do 5 (destruct xs as [|? xs]; [discriminate|]). destruct xs; [|discriminate].
  do 4 (destruct dxs as [|? dxs]; [discriminate|]). destruct dxs; [|discriminate].
  cbn [app]. unfold lwa_line. cbn [starts_with isspace forallb]. rewrite S0. destruct (Z.eqb_spec 35 c0); [congruence|]. cbn [andb orb].
  unfold slice. cbn [Nat.sub firstn skipn nth_error]. rewrite Ph, Pm, Fx, Pd, Pdm, Fd, R0, W.
  rewrite mk_hms_ok by (repeat split; lia || assumption). cbn [bind].
  assert (Sb : (sg =? 45) = n) by (destruct Sg as [(-> & ->)|([->| ->] & ->)]; reflexivity). rewrite Sb.
  rewrite mk_dms_ok by (repeat split; lia || assumption). cbn [bind]. unfold equ_posn. cbn [h_hours h_minutes h_seconds d_neg d_degrees d_minutes d_seconds].
  rewrite P. reflexivity.
Qed.
Lemma lwa_app : forall F ls r c, lwa_parse F (ls ++ r) c = bind (lwa_parse F ls c) (lwa_parse F r).
Proof.
  intros F ls r. induction ls as [|l ls IH]; intro c; [reflexivity|]. cbn [app lwa_parse]. destruct (lwa_line F l); cbn [bind]; [apply IH|reflexivity].
Qed.
Lemma lwa_build : forall F ls ss, lwa_file (F := F) ls ss -> forall c, lwa_parse F ls c = Ok (build ss c).
Proof.
  intros F ls ss H. induction H as [|l ls ss Hl _ IH|l s ls ss Hl _ IH]; intro c; cbn [lwa_parse]; [reflexivity| |].
  - rewrite lwa_line_skip by exact Hl. cbn [bind]. apply IH.
  - rewrite (lwa_line_source F l s) by exact Hl. cbn [bind]. rewrite IH. reflexivity.
Qed.
