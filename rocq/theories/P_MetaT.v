From Coq Require Import String.
From Coq Require Import List ZArith Bool Lia Sorted.
From Verif Require Import M_CStruct S_CStruct M_Str P_Str P_CStruct P_CStructL P_CStructT M_Meta S_Meta S_Ndp P_Ndp P_Meta P_MetaC.
Import ListNotations.
Open Scope Z_scope.

(** A session specification file of MCS: every number is in the dictionary under its key, the project without the blanks
    around it, the special setup, and the recording and update intervals of eight subsystems.  _partial: the interval
    of the ninth, DR5, is not there (see below). *)
Lemma C104_session_partial_proof : forall v bs rest, stored ses_fields v bs ->
  (forall k n, In (k, n) ses_numbers -> entry (read_ses (bs ++ rest)) k = Some (PInt (scalar v n))) /\
  (forall t u, text_of t (v (cs "PROJECT_ID")) -> trims_to t u -> entry (read_ses (bs ++ rest)) "project_id" = Some (PBytes u)) /\
  (exists t, entry (read_ses (bs ++ rest)) "spc_setup" = Some (PBytes t) /\ text_of t (v (cs "SESSION_SPC"))) /\
  (exists r u, entry (read_ses (bs ++ rest)) "record_mib" = Some (PDict r) /\ entry (read_ses (bs ++ rest)) "update_mib" = Some (PDict u) /\
     forall s, In s mib_systems -> entry r s = Some (scalar v ("SESSION_MRP_" ++ s)) /\ entry u s = Some (scalar v ("SESSION_MUP_" ++ s))).
Proof.
  intros v bs rest S.
  assert (A : forall n, existsb (str_eqb (cs n)) (map d_name ses_fields) = true -> a1 ssf bs n = scalar v n)
    by (intros n Hn; now apply (st_a1 _ _ ssf_eq ses_nd)).
  unfold read_ses. rewrite (st_read _ _ ssf_eq _ _ _ _ S) by (eapply st_fresh; [exact ssf_eq|exact S]). cbv zeta.
  rewrite (st_ac _ _ ssf_eq ses_nd _ _ "PROJECT_ID" S), (st_ac _ _ ssf_eq ses_nd _ _ "SESSION_SPC" S) by reflexivity.
  split; [|split; [|split]].
  - intros k n IN. unfold ses_numbers in IN. repeat (destruct IN as [IN|IN]; [inversion IN; subst; cbn; rewrite A by reflexivity; reflexivity|]). destruct IN.
  - intros t u T1 T2. cbn [entry find fst String.eqb Ascii.eqb Bool.eqb]. rewrite (chars_text _ _ T1), (bstrip_trims _ _ T2). reflexivity.
  - eexists. split; [reflexivity|]. apply chars_is.
  - eexists _, _. split; [reflexivity|]. split; [reflexivity|]. intros s IN. unfold mib_systems in IN.
    repeat (destruct IN as [<-|IN]; [cbn; rewrite !A by reflexivity; auto|]). destruct IN.
Qed.

(** The property is violated for DR5: whatever the file says, its intervals are in neither dictionary. *)
Lemma C104_DR5_refuted_proof : forall file, exists r u,
  entry (read_ses file) "record_mib" = Some (PDict r) /\ entry (read_ses file) "update_mib" = Some (PDict u) /\ entry r "DR5" = None /\ entry u "DR5" = None.
Proof.
  intro file. unfold read_ses. destruct (readinto (fresh ssf) file) as [m r]. eexists _, _. split; [reflexivity|]. split; [reflexivity|]. split; reflexivity.
Qed.

(** It is violated for a session specification that ends early: it is read without an error, as if zeros followed. *)
Lemma C104_session_cut_refuted_proof : forall p, zlen p <= 128 -> read_ses p = read_ses (p ++ repeat 0 (Z.to_nat (128 - zlen p))).
Proof.
  intros p L. assert (SZ : sizeof ssf = 128) by (rewrite ssf_eq; vm_compute; reflexivity).
  set (q := p ++ repeat 0 (Z.to_nat (128 - zlen p))).
  assert (LQ : zlen q = 128) by (subst q; rewrite zlen_app; unfold zlen in *; rewrite repeat_length; lia).
  unfold read_ses. rewrite C103_short_file_proof by lia. rewrite (C103_short_file_proof ssf q) by lia.
  rewrite SZ, LQ. change (repeat 0 (Z.to_nat (128 - 128))) with (@nil Z). rewrite app_nil_r. reflexivity.
Qed.

(** An observation specification file of MCS, with or without custom beams in its steps: every value is in the
    dictionary, and the steps are the stored ones in the stored order. *)
Lemma C104_observation_proof : forall h steps f bs rest, obs_file h steps f bs -> known_mode (scalar h "OBS_MODE") ->
  exists d, read_obs (bs ++ rest) = Ok d /\
    (forall k n, In (k, n) obs_numbers -> entry d k = Some (PInt (scalar h n))) /\
    (forall t u, text_of t (h (cs "PROJECT_ID")) -> trims_to t u -> entry d "project_id" = Some (PBytes u)) /\
    (exists t, entry d "spc_setup" = Some (PBytes t) /\ text_of t (h (cs "SESSION_SPC"))) /\
    (exists t, entry d "beamdipole_mode" = Some (PBytes t) /\ text_of t (h (cs "OBS_BDM"))) /\
    entry d "mode" = Some (PMode (scalar h "OBS_MODE")) /\
    entry d "ra" = Some (PBits (scalar h "OBS_RA")) /\ entry d "dec" = Some (PBits (scalar h "OBS_DEC")) /\
    entry d "freq1" = Some (PFreq (scalar h "OBS_FREQ1")) /\ entry d "freq2" = Some (PFreq (scalar h "OBS_FREQ2")) /\
    (exists l, entry d "steps" = Some (PSteps l) /\ Forall2 step_is steps l) /\
    (exists t, entry d "fee_power" = Some (PNest t) /\ shaped [256; 2] t /\
       forall i j, 0 <= i < 256 -> 0 <= j < 2 -> get [i; j] t = nth_error (f (cs "OBS_FEE")) (Z.to_nat (2 * i + j))) /\
    (forall k n, In (k, n) tail_lists -> entry d k = Some (PList (f (cs n)))) /\
    entry d "tbt_samples" = Some (PInt (scalar f "OBS_TBT_SAMPLES")) /\ entry d "drx_gain" = Some (PInt (scalar f "OBS_DRX_GAIN")).
Proof.
  intros h steps f bs rest (hb & sb & fb & -> & SH & SS & SF & N & N1 & AL) KM.
  assert (A : forall n, existsb (str_eqb (cs n)) (map d_name obs_fields) = true -> a1 osf hb n = scalar h n)
    by (intros n Hn; now apply (st_a1 _ _ osf_eq obs_nd)).
  assert (B : forall n, existsb (str_eqb (cs n)) (map d_name tail_fields) = true -> a1 osf2 fb n = scalar f n)
    by (intros n Hn; now apply (st_a1 _ _ osf2_eq tail_nd)).
  unfold read_obs. rewrite <- !app_assoc. rewrite (st_read _ _ osf_eq _ _ _ _ SH) by (eapply st_fresh; [exact osf_eq|exact SH]).
  rewrite !A by reflexivity. rewrite N. replace (zlen steps >? max_steps) with false
    by (symmetry; rewrite Z.gtb_ltb; apply Z.ltb_ge; change max_steps with 1024; lia).
  unfold zlen at 1. rewrite Nat2Z.id.
  destruct (steps_ok steps sb SS (fresh osfs) (fresh beamf) (fb ++ rest)) as (l & R & F).
  { apply fresh_len. rewrite osfs_eq. vm_compute. discriminate. }
  { apply fresh_len. rewrite beamf_eq. vm_compute. discriminate. }
  rewrite R. cbn [bind].
  rewrite (st_read _ _ osf2_eq _ _ _ _ SF) by (eapply st_fresh; [exact osf2_eq|exact SF]).
  rewrite !B by reflexivity. rewrite AL. change (negb (4294967295 =? 2 ^ 32 - 1)) with false. cbn iota.
  replace (existsb (Z.eqb (scalar h "OBS_MODE")) observing_modes) with true
    by (symmetry; apply in_ids; change observing_modes with (zseq 1 11); apply zseq_In; unfold known_mode in KM; lia).
  cbn [negb].
  destruct (st_am _ _ osf2_eq tail_nd _ _ "OBS_FEE" [256; 2] SF) as (g & G1 & G2 & G3);
    [left; left; reflexivity|discriminate|repeat constructor; lia|]. rewrite G1. cbn [bind].
  rewrite (st_ac _ _ osf_eq obs_nd _ _ "PROJECT_ID" SH), (st_ac _ _ osf_eq obs_nd _ _ "SESSION_SPC" SH), (st_ac _ _ osf_eq obs_nd _ _ "OBS_BDM" SH) by reflexivity.
  rewrite (st_al _ _ osf2_eq tail_nd _ _ "OBS_ASP_FLT" SF), (st_al _ _ osf2_eq tail_nd _ _ "OBS_ASP_AT1" SF),
    (st_al _ _ osf2_eq tail_nd _ _ "OBS_ASP_AT2" SF), (st_al _ _ osf2_eq tail_nd _ _ "OBS_ASP_AT3" SF) by reflexivity.
  eexists. split; [reflexivity|].
  split.
  { intros k n IN. unfold obs_numbers in IN. repeat (destruct IN as [IN|IN]; [inversion IN; subst; cbn; rewrite ?N; reflexivity|]). destruct IN. }
  split.
  { intros t u T1 T2. cbn [entry find fst String.eqb Ascii.eqb Bool.eqb]. rewrite (chars_text _ _ T1), (bstrip_trims _ _ T2). reflexivity. }
  split; [eexists; split; [reflexivity|apply chars_is]|]. split; [eexists; split; [reflexivity|apply chars_is]|].
  do 5 (split; [reflexivity|]). split; [exists l; split; [reflexivity|exact F]|].
  split; [exists g; split; [reflexivity|split; [exact G2|]]|].
  { intros i j Hi Hj. rewrite G3 by (cbn; lia). f_equal. f_equal. cbn [row_major size fold_right]. lia. }
  split; [|split; reflexivity].
  intros k n IN. unfold tail_lists in IN. repeat (destruct IN as [IN|IN]; [inversion IN; subst; reflexivity|]). destruct IN.
Qed.

(** An observation specification file cut anywhere is refused. *)
Lemma C104_observation_cut_proof : forall h steps f bs p q, obs_file h steps f bs -> bs = p ++ q -> q <> [] -> read_obs p = Raise OSError.
Proof.
  intros h steps f bs p q (hb & sb & fb & -> & SH & SS & SF & N & N1 & AL) E NE.
  assert (MS : max_steps = 1024) by (vm_compute; reflexivity).
  assert (TAIL : forall p', bytes_ok p' -> zlen p' < 3084 ->
     forall (k : list Z -> res (list (string * pv))), (let '(f, _) := readinto (fresh osf2) p' in
        if negb (a1 osf2 f "alignment" =? 2 ^ 32 - 1) then Raise OSError else k f) = Raise OSError).
  { intros p' BO L k. pose proof (tail_short p' BO L) as T. destruct (readinto (fresh osf2) p') as [m r]. rewrite T. reflexivity. }
  assert (L1 : zlen (fresh osfs) = sizeof osfs) by (apply fresh_len; rewrite osfs_eq; vm_compute; discriminate).
  assert (L2 : zlen (fresh beamf) = sizeof beamf) by (apply fresh_len; rewrite beamf_eq; vm_compute; discriminate).
  unfold read_obs. destruct (prefix_cases _ _ _ _ E) as [(p1 & -> & E1)|(LP & a' & EA & NA)].
  - rewrite (st_read _ _ osf_eq _ _ _ _ SH) by (eapply st_fresh; [exact osf_eq|exact SH]).
    rewrite (st_a1 _ _ osf_eq obs_nd _ _ "OBS_STP_N" SH) by reflexivity. rewrite N.
    destruct (zlen steps >? max_steps); [reflexivity|]. unfold zlen at 1. rewrite Nat2Z.id.
    destruct (steps_prefix steps sb SS (fresh osfs) (fresh beamf) fb p1 q) as [R|(l & p' & R & EF)]; auto.
    + rewrite R. reflexivity.
    + rewrite R. cbn [bind]. apply TAIL.
      * pose proof (st_bytes _ _ _ SF) as BO. rewrite EF in BO. apply Forall_app in BO. tauto.
      * pose proof (st_size _ _ osf2_eq _ _ SF) as SZ. rewrite osf2_size, EF, zlen_app in SZ.
        assert (0 < zlen q) by (destruct q; [now contradiction NE|]; rewrite zlen_cons; pose proof (zlen_nonneg q); lia). lia.
  - pose proof (st_size _ _ osf_eq _ _ SH) as SZ. rewrite readinto_short by (erewrite st_fresh by (exact osf_eq || exact SH); lia).
    destruct (a1 osf (p ++ zdrop (zlen p) (fresh osf)) "OBS_STP_N" >? max_steps); [reflexivity|].
    destruct (Z.to_nat (a1 osf (p ++ zdrop (zlen p) (fresh osf)) "OBS_STP_N")) as [|k].
    + cbn [read_steps bind]. apply TAIL; [constructor|rewrite zlen_nil; lia].
    + rewrite steps_none. reflexivity.
Qed.

(** More than 1024 steps are refused, and so is an observing mode that does not exist. *)
Lemma C104_observation_refused_proof :
  (forall h hb rest, stored obs_fields h hb -> 1024 < scalar h "OBS_STP_N" -> read_obs (hb ++ rest) = Raise OSError) /\
  (forall h steps f bs rest, obs_file h steps f bs -> ~ known_mode (scalar h "OBS_MODE") -> read_obs (bs ++ rest) = Raise ValueError).
Proof.
  split.
  - intros h hb rest SH N. unfold read_obs. rewrite (st_read _ _ osf_eq _ _ _ _ SH) by (eapply st_fresh; [exact osf_eq|exact SH]).
    rewrite (st_a1 _ _ osf_eq obs_nd _ _ "OBS_STP_N" SH) by reflexivity.
    replace (scalar h "OBS_STP_N" >? max_steps) with true; [reflexivity|]. symmetry. rewrite Z.gtb_ltb. apply Z.ltb_lt. change max_steps with 1024. lia.
  - intros h steps f bs rest (hb & sb & fb & -> & SH & SS & SF & N & N1 & AL) KM.
    unfold read_obs. rewrite <- !app_assoc. rewrite (st_read _ _ osf_eq _ _ _ _ SH) by (eapply st_fresh; [exact osf_eq|exact SH]).
    rewrite (st_a1 _ _ osf_eq obs_nd _ _ "OBS_STP_N" SH), (st_a1 _ _ osf_eq obs_nd _ _ "OBS_MODE" SH) by reflexivity. rewrite N.
    replace (zlen steps >? max_steps) with false by (symmetry; rewrite Z.gtb_ltb; apply Z.ltb_ge; change max_steps with 1024; lia).
    unfold zlen at 1. rewrite Nat2Z.id.
    destruct (steps_ok steps sb SS (fresh osfs) (fresh beamf) (fb ++ rest)) as (l & R & F).
    { apply fresh_len. rewrite osfs_eq. vm_compute. discriminate. }
    { apply fresh_len. rewrite beamf_eq. vm_compute. discriminate. }
    rewrite R. cbn [bind]. rewrite (st_read _ _ osf2_eq _ _ _ _ SF) by (eapply st_fresh; [exact osf2_eq|exact SF]).
    rewrite (st_a1 _ _ osf2_eq tail_nd _ _ "alignment" SF) by reflexivity. rewrite AL. change (negb (4294967295 =? 2 ^ 32 - 1)) with false. cbn iota.
    replace (existsb (Z.eqb (scalar h "OBS_MODE")) observing_modes) with false; [reflexivity|].
    symmetry. destruct (existsb (Z.eqb (scalar h "OBS_MODE")) observing_modes) eqn:EX; [|reflexivity].
    apply existsb_exists in EX. destruct EX as (x & IN & EQ). apply Z.eqb_eq in EQ. subst x. unfold known_mode in KM. exfalso. apply KM.
    unfold observing_modes in IN. repeat (destruct IN as [<-|IN]; [lia|]). destruct IN.
Qed.

(** A concrete session and a concrete observation with two steps, the first with a custom beam. *)
Lemma C104_example_proof :
  (exists v bs, stored ses_fields v bs /\ scalar v "SESSION_ID" = 7 /\ scalar v "SESSION_MRP_DR5" = 30 /\
     exists t u, text_of t (v (cs "PROJECT_ID")) /\ trims_to t u /\ u = [76; 65]) /\
  exists h steps f bs, obs_file h steps f bs /\ known_mode (scalar h "OBS_MODE") /\ zlen steps = 2 /\
    map (fun s => scalar (sp_step s) "OBS_STP_B") steps = [3; 1].
Proof.
  split.
  - set (v := vals ses_fields [("SESSION_ID", [7]); ("SESSION_MRP_DR5", [30]); ("PROJECT_ID", [32; 76; 65; 32; 0; 5; 0; 0; 0])]%string).
    destruct (stored_some ses_fields v) as (bs & S); [vm_compute; reflexivity|].
    exists v, bs. split; [exact S|]. split; [reflexivity|]. split; [reflexivity|].
    exists [32; 76; 65; 32], [76; 65]. split; [|split; [|reflexivity]].
    + split; [repeat (constructor; [lia|]); constructor|]. right. exists [5; 0; 0; 0]. reflexivity.
    + exists [32], [32]. split; [reflexivity|]. split; [repeat constructor; right; reflexivity|]. split; [repeat constructor; right; reflexivity|].
      split; [intros c r E; inversion E; subst; unfold blank_byte; lia|].
      intros c r E. destruct r as [|a [|b r]]; cbn in E; inversion E; subst; [unfold blank_byte; lia|]. destruct r; discriminate.
  - set (h := vals obs_fields [("OBS_STP_N", [2]); ("OBS_MODE", [4])]%string).
    set (s1 := vals step_fields [("OBS_STP_B", [3])]%string). set (s2 := vals step_fields [("OBS_STP_B", [1])]%string).
    set (bm := vals beam_fields []). set (f := vals tail_fields [("alignment", [4294967295])]%string).
    destruct (stored_some obs_fields h) as (hb & SH); [vm_compute; reflexivity|].
    destruct (stored_some step_fields s1) as (b1 & S1); [vm_compute; reflexivity|].
    destruct (stored_some step_fields s2) as (b2 & S2); [vm_compute; reflexivity|].
    destruct (stored_some beam_fields bm) as (bb & SB); [vm_compute; reflexivity|].
    destruct (stored_some tail_fields f) as (fb & SF); [vm_compute; reflexivity|].
    exists h, [mkSpec s1 bm; mkSpec s2 bm], f, (hb ++ concat [b1 ++ bb ++ le 4 4294967294; b2 ++ [] ++ le 4 4294967294] ++ fb).
    split; [|split; [change (scalar h "OBS_MODE") with 4; unfold known_mode; lia|split; reflexivity]].
    exists hb, [b1 ++ bb ++ le 4 4294967294; b2 ++ [] ++ le 4 4294967294], fb.
    split; [reflexivity|]. split; [exact SH|]. split; [|split; [exact SF|split; [reflexivity|split; [cbn; discriminate|reflexivity]]]].
    constructor; [|constructor; [|constructor]].
    + exists b1, bb. split; [reflexivity|]. split; [exact S1|]. split; [auto|]. intro NE. contradiction NE. reflexivity.
    + exists b2, []. split; [reflexivity|]. split; [exact S2|]. split; [|auto]. intro E. discriminate E.
Qed.

(** A command script of MCS: all commands in their order, each with its time, subsystem, type and data.  _partial: the data
    hold no NUL, are at most 256 bytes long, and no command has the time 0 (see below). *)
Lemma C105_script_partial_proof : forall cmds bss tail, Forall2 command_bytes cmds bss -> Forall good_command cmds ->
  Forall (fun c => Forall (fun b => b <> 0) (k_data c)) cmds -> script_end tail ->
  exists l, read_cs (concat bss ++ tail) = Ok l /\ Forall2 command_is cmds l.
Proof.
  intros cmds bss tail H G NZ TE. destruct (script_app cmds bss tail H G NZ) as (l & fuel & R & F). exists l. split; [|exact F].
  rewrite R, script_stop by auto. cbn. now rewrite app_nil_r.
Qed.

(** Any file is read to an end: there is a list, or an unknown subsystem or command, or one of DP and ADP. *)
Lemma C105_ends_proof : forall file, (exists l, read_cs file = Ok l) \/ read_cs file = Raise ValueError \/ read_cs file = Raise RuntimeError.
Proof.
  intro file. unfold read_cs. apply (commands_end (S (length file)) file). lia.
Qed.

(** After any number of commands, one for a subsystem or of a type that does not exist refuses the whole file, and so
    does one for DP or ADP. *)
Lemma C105_refused_proof : forall cmds bss v ab rest, Forall2 command_bytes cmds bss -> Forall good_command cmds ->
  Forall (fun c => Forall (fun b => b <> 0) (k_data c)) cmds -> stored action_fields v ab -> tv v 0 <> 0 -> scalar v "len" <= 256 ->
  (~ (1 <= scalar v "sid" <= 20) \/ ~ (0 <= scalar v "cid" <= 45) -> read_cs (concat bss ++ ab ++ rest) = Raise ValueError) /\
  (scalar v "sid" = 13 \/ scalar v "sid" = 19 -> 0 <= scalar v "cid" <= 45 -> read_cs (concat bss ++ ab ++ rest) = Raise RuntimeError).
Proof.
  intros cmds bss v ab rest H G NZ S T L. destruct (script_app cmds bss (ab ++ rest) H G NZ) as (l & fuel & R & F). rewrite R, (command_first v) by auto.
  replace ((0 <? scalar v "len") && (scalar v "len" >? 256)) with false by (symmetry; apply andb_false_iff; right; rewrite Z.gtb_ltb; apply Z.ltb_ge; lia).
  destruct (if 0 <? scalar v "len" then _ else (None, rest)) as [data r].
  assert (OUT : forall x lo n, ~ (lo <= x < lo + Z.of_nat n) -> existsb (Z.eqb x) (zseq lo n) = false).
  { intros x lo n. revert lo. induction n as [|n IH]; intros lo NI; [reflexivity|]. cbn [zseq existsb]. rewrite IH by lia.
    destruct (Z.eqb_spec x lo); [lia|reflexivity]. }
  split.
  - intros [B|B].
    + change subsystem_ids with (zseq 1 20). rewrite (OUT (scalar v "sid")) by lia. reflexivity.
    + destruct (existsb (Z.eqb (scalar v "sid")) subsystem_ids); [|reflexivity]. unfold command_ids. rewrite (OUT (scalar v "cid")) by lia. reflexivity.
  - intros B C. rewrite (subsystem_in (scalar v "sid")), (command_in (scalar v "cid")) by lia. cbn [negb].
    destruct B as [-> | ->]; reflexivity.
Qed.

(** The property is violated for a command with more than 256 bytes of data: it and everything after it are left out
    without an error. *)
Lemma C105_long_refuted_proof : forall cmds bss v ab rest, Forall2 command_bytes cmds bss -> Forall good_command cmds ->
  Forall (fun c => Forall (fun b => b <> 0) (k_data c)) cmds -> stored action_fields v ab -> tv v 0 <> 0 -> 256 < scalar v "len" ->
  exists l, read_cs (concat bss ++ ab ++ rest) = Ok l /\ Forall2 command_is cmds l.
Proof.
  intros cmds bss v ab rest H G NZ S T L. destruct (script_app cmds bss (ab ++ rest) H G NZ) as (l & fuel & R & F). rewrite R, (command_first v) by auto.
  replace ((0 <? scalar v "len") && (scalar v "len" >? 256)) with true
    by (symmetry; apply andb_true_iff; split; [apply Z.ltb_lt; lia|rewrite Z.gtb_ltb; apply Z.ltb_lt; lia]).
  exists l. split; [|exact F]. cbn. now rewrite app_nil_r.
Qed.

(** It is violated for data with a NUL, which are cut there, and for a file that ends inside the data of a command, which is
    returned with the data that are left although its length says more. *)
Lemma C105_data_refuted_proof : exists v ab, stored action_fields v ab /\ tv v 0 = 100 /\ scalar v "len" = 3 /\
  read_cs (ab ++ [65; 0; 66]) = Ok [mkCmd 100 0 false 12 7 3 (Some [65])] /\
  read_cs (ab ++ [65]) = Ok [mkCmd 100 0 false 12 7 3 (Some [65])].
Proof.
  set (v := vals action_fields [("tv", [100; 0]); ("sid", [12]); ("cid", [7]); ("len", [3])]%string).
  exists v, (mk_image false (map (fun d => (d, v (d_name d))) action_fields)). split; [apply stored_ex; vm_compute; reflexivity|].
  split; [reflexivity|]. split; [reflexivity|]. split; vm_compute; reflexivity.
Qed.

(** A concrete script: two commands, the second with data. *)
Lemma C105_example_proof : exists cmds bss, Forall2 command_bytes cmds bss /\ Forall good_command cmds /\
  Forall (fun c => Forall (fun b => b <> 0) (k_data c)) cmds /\ map k_data cmds = [[]; [68; 82; 88]].
Proof.
  set (v1 := vals action_fields [("tv", [100; 5]); ("sid", [12]); ("cid", [7])]%string).
  set (v2 := vals action_fields [("tv", [101; 0]); ("bASAP", [1]); ("sid", [20]); ("cid", [45]); ("len", [3])]%string).
  destruct (stored_some action_fields v1) as (b1 & S1); [vm_compute; reflexivity|].
  destruct (stored_some action_fields v2) as (b2 & S2); [vm_compute; reflexivity|].
  exists [mkCmdSpec v1 []; mkCmdSpec v2 [68; 82; 88]], [b1 ++ []; b2 ++ [68; 82; 88]]. split; [|split; [|split; [|reflexivity]]].
  - constructor; [exists b1; auto|]. constructor; [exists b2; auto|constructor].
  - constructor; [|constructor; [|constructor]]; unfold good_command; cbn [k_action k_data].
    + change (tv v1 0) with 100. change (scalar v1 "sid") with 12. change (scalar v1 "cid") with 7. change (scalar v1 "len") with 0.
      repeat split; try lia; try discriminate. constructor.
    + change (tv v2 0) with 101. change (scalar v2 "sid") with 20. change (scalar v2 "cid") with 45. change (scalar v2 "len") with 3.
      repeat split; try lia; try discriminate. repeat (constructor; [unfold is_byte; lia|]). constructor.
  - constructor; [constructor|]. constructor; [|constructor]. repeat (constructor; [discriminate|]). constructor.
Qed.

(** The session specification of a tarball: the member named like the tarball, the last one if there are several; without
    one, the first member ending in .ses.  The command script: the first member ending in .cs. *)
Lemma C106_member_proof :
  (forall base tar t, last_of_name tar t -> fst t = base ++ cs ".ses" -> get_session_spec base tar = Ok (read_ses (snd t))) /\
  (forall base tar t, first_ending (cs ".ses") tar t -> Forall (fun u => fst u <> base ++ cs ".ses") tar ->
     get_session_spec base tar = Ok (read_ses (snd t))) /\
  (forall tar t, first_ending (cs ".cs") tar t -> get_command_script tar = read_cs (snd t)).
Proof.
  assert (FIRST : forall e tar t, first_ending e tar t -> first_else_last (ends_with e) tar = Ok t).
  { intros e tar t (HE & a & b & -> & NA). induction NA as [|u a NU _ IH].
    - cbn [app first_else_last]. replace (ends_with e (fst t)) with true by (symmetry; now apply ends_with_iff). reflexivity.
    - cbn [app first_else_last]. destruct (ends_with e (fst u)) eqn:EU; [apply ends_with_iff in EU; contradiction|].
      destruct (a ++ t :: b) eqn:EB; [destruct a; discriminate|]. exact IH. }
  split; [|split].
  - intros base tar t (a & b & -> & NB) NM. unfold get_session_spec, session_member, getmember.
    rewrite rev_app_distr. cbn [rev]. rewrite <- !app_assoc. cbn [app].
    rewrite (find_last_name (base ++ cs ".ses") (rev b) t) by (auto; rewrite <- NM; now apply Forall_rev). reflexivity.
  - intros base tar t FE NM. unfold get_session_spec, session_member, getmember.
    rewrite find_none_name by (now apply Forall_rev). now rewrite (FIRST _ _ _ FE).
  - intros tar t FE. unfold get_command_script. rewrite (FIRST _ _ _ FE). reflexivity.
Qed.

(** The property is violated for a tarball without a session specification or without a command script: whatever member comes
    last is read as one. *)
Lemma C106_no_member_refuted_proof :
  (forall base tar t, Forall (fun u => ~ has_ending (cs ".ses") (fst u)) (tar ++ [t]) -> get_session_spec base (tar ++ [t]) = Ok (read_ses (snd t))) /\
  (forall tar t, Forall (fun u => ~ has_ending (cs ".cs") (fst u)) (tar ++ [t]) -> get_command_script (tar ++ [t]) = read_cs (snd t)).
Proof.
  assert (LAST : forall e tar t, Forall (fun u => ~ has_ending e (fst u)) (tar ++ [t]) -> first_else_last (ends_with e) (tar ++ [t]) = Ok t).
  { intros e tar t H. apply first_last. destruct (existsb (fun u => ends_with e (fst u)) (tar ++ [t])) eqn:EX; [|reflexivity].
    apply existsb_exists in EX. destruct EX as (u & IN & EU). apply ends_with_iff in EU. rewrite Forall_forall in H. now apply H in IN. }
  split.
  - intros base tar t H. unfold get_session_spec, session_member, getmember.
    rewrite find_none_name; [now rewrite (LAST _ _ _ H)|]. apply Forall_rev. eapply Forall_impl; [|exact H].
    intros u NU E. apply NU. exists base. exact E.
  - intros tar t H. unfold get_command_script. rewrite (LAST _ _ _ H). reflexivity.
Qed.

(** The observations of a tarball: one for each name ending in .obs, in the order of the names, read from the last member of that
    name; one that is refused refuses all. *)
Lemma C106_observations_proof : forall tar, exists ms,
  StronglySorted (fun a b => name_before (fst a) (fst b)) ms /\
  (forall t, In t ms <-> plain_obs (fst t) /\ last_of_name tar t) /\
  match get_observation_spec tar with
  | Ok os => Forall2 (fun t o => read_obs (snd t) = Ok o) ms os
  | Raise e => exists t, In t ms /\ read_obs (snd t) = Raise e
  end.
Proof.
  intro tar. exists (obs_members tar).
  set (ok := fun t : member => ends_with (cs ".obs") (fst t) && negb (existsb (Z.eqb 47) (fst t)) && negb (starts_with [46] (fst t))).
  destruct (fold_insert (filter ok tar) [] I) as [O' M'].
  assert (O : ordered (obs_members tar)) by exact O'.
  assert (M : forall u, In u (obs_members tar) <-> (exists a b, filter ok tar = a ++ u :: b /\ Forall (fun w => fst w <> fst u) b) \/
    (In u [] /\ Forall (fun w => fst w <> fst u) (filter ok tar))) by exact M'. clear O' M'.
  assert (OK : forall t, ok t = true <-> plain_obs (fst t)).
  { intro t. unfold ok, plain_obs. rewrite !andb_true_iff, !negb_true_iff, ends_with_iff. split; intros H.
    - destruct H as [[H1 H2] H3]. split; [auto|]. split.
      + intro IN. assert (X : existsb (Z.eqb 47) (fst t) = true) by (apply existsb_exists; exists 47; split; [auto|apply Z.eqb_refl]). congruence.
      + destruct (fst t) as [|c r]; [discriminate|]. cbn in H3. intro E. cbn in E. inversion E; subst. discriminate.
    - destruct H as [H1 [H2 H3]]. split; [split; [auto|]|].
      + destruct (existsb (Z.eqb 47) (fst t)) eqn:EX; [|reflexivity]. apply existsb_exists in EX. destruct EX as (x & IN & EQ). apply Z.eqb_eq in EQ. subst x. contradiction.
      + destruct (fst t) as [|c r]; [reflexivity|]. cbn [starts_with hd_error] in *. destruct (Z.eqb_spec 46 c) as [<-|]; [now contradiction H3|]. reflexivity. }
  split; [|split].
  - clear M. induction (obs_members tar) as [|t l IH]; [constructor|]. destruct O as [O1 O2].
    constructor; auto.
  - intro t. rewrite M. clear O M. split.
    + intros [(a & b & E & F)|[[] _]]. assert (IN : In t (filter ok tar)) by (rewrite E; apply in_or_app; right; now left).
      apply filter_In in IN. destruct IN as [_ OT]. split; [now apply OK|].
      clear OK. revert a E. induction tar as [|u tar IH]; intros a E; [destruct a; discriminate|]. cbn [filter] in E. destruct (ok u) eqn:OU.
      * destruct a as [|w a]; cbn in E; inversion E; subst.
        { exists [], tar. split; [reflexivity|]. apply Forall_forall. intros x IX EX. rewrite Forall_forall in F. apply (F x); [|exact EX].
          apply filter_In. split; [exact IX|]. unfold ok in *. now rewrite EX. }
        { destruct (IH a) as (x & y & -> & FY); [assumption|]. exists (w :: x), y. auto. }
      * destruct (IH a E) as (x & y & -> & FY). exists (u :: x), y. auto.
    + intros [OT (a & b & -> & F)]. left. apply OK in OT. rewrite filter_app. cbn [filter]. rewrite OT. eexists _, _. split; [reflexivity|].
      apply Forall_forall. intros x IX. apply filter_In in IX. rewrite Forall_forall in F. apply F. tauto.
  - unfold get_observation_spec. clear O M. induction (obs_members tar) as [|t l IH]; [constructor|].
    cbn [read_all]. destruct (read_obs (snd t)) as [o|e] eqn:ER; cbn [bind]; [|exists t; split; [now left|exact ER]].
    destruct (read_all l) as [os|e]; cbn [bind]; [constructor; auto|]. destruct IH as (u & IN & EU). exists u. split; [now right|exact EU].
Qed.

(** The property is violated by the test of a tarball: one whose only member is empty, and is none of the files of a session, is valid. *)
Lemma C106_valid_refuted_proof : forall base n, ~ has_ending (cs ".obs") n -> is_valid base [(n, [])] = Ok true.
Proof.
  intros base n NO. unfold is_valid.
  assert (SES : get_session_spec base [(n, [])] = Ok (read_ses [])).
  { unfold get_session_spec, session_member, getmember. cbn [rev app find fst]. destruct (str_eqb n (base ++ cs ".ses")); [reflexivity|].
    cbn [first_else_last fst]. destruct (ends_with (cs ".ses") n); reflexivity. }
  assert (OBS : get_observation_spec [(n, [])] = Ok []).
  { unfold get_observation_spec, obs_members. cbn [filter fst]. destruct (ends_with (cs ".obs") n) eqn:E; [apply ends_with_iff in E; contradiction|]. reflexivity. }
  assert (CMD : get_command_script [(n, [])] = Ok []).
  { unfold get_command_script. cbn [first_else_last fst].
    assert (R : read_cs [] = Ok []) by (unfold read_cs; apply (script_stop 0 []); now left).
    destruct (ends_with (cs ".cs") n); cbn [bind snd]; exact R. }
  rewrite SES, OBS, CMD. reflexivity.
Qed.

(** A tarball opened after another one is read from the disk.  _partial: not one opened twice in a row (see below). *)
Lemma C106_opened_partial_proof : forall cache disk name t, disk name = Some t -> (forall n u, cache = Some (n, u) -> n <> name) ->
  open_tarball cache disk name = (Ok t, Some (name, t)).
Proof.
  intros cache disk name t D1 NE. unfold open_tarball. rewrite D1. destruct cache as [[n u]|]; [|reflexivity].
  destruct (str_eqb_spec n name) as [E|_]; [now apply (NE n u) in E|reflexivity].
Qed.

(** The property is violated for a tarball opened again: the old members are returned, whether it was replaced or removed. *)
Lemma C106_opened_refuted_proof : forall disk1 disk2 name t, disk1 name = Some t ->
  exists cache, open_tarball None disk1 name = (Ok t, cache) /\ open_tarball cache disk2 name = (Ok t, cache).
Proof.
  intros disk1 disk2 name t D1. exists (Some (name, t)). unfold open_tarball. rewrite D1, str_eqb_refl. auto.
Qed.

(** A concrete tarball: two observations out of order and one of them twice. *)
Lemma C106_example_proof :
  let tar := [(cs "x_02.obs", [1]); (cs "x.ses", [2]); (cs "x_01.obs", [3]); (cs "x.cs", [4]); (cs "x_02.obs", [5]); (cs "x.ses", [6])] in
  last_of_name tar (cs "x.ses", [6]) /\ first_ending (cs ".cs") tar (cs "x.cs", [4]) /\
  obs_members tar = [(cs "x_01.obs", [3]); (cs "x_02.obs", [5])].
Proof.
  cbv zeta. split; [|split].
  - exists [(cs "x_02.obs", [1]); (cs "x.ses", [2]); (cs "x_01.obs", [3]); (cs "x.cs", [4]); (cs "x_02.obs", [5])], []. split; [reflexivity|constructor].
  - split; [exists [120]; reflexivity|].
    exists [(cs "x_02.obs", [1]); (cs "x.ses", [2]); (cs "x_01.obs", [3])], [(cs "x_02.obs", [5]); (cs "x.ses", [6])]. split; [reflexivity|].
    repeat (constructor; [intro H; apply ends_with_iff in H; vm_compute in H; discriminate|]). constructor.
  - vm_compute. reflexivity.
Qed.

(** A station dynamic MIB of MCS: the status of the station, of SHL, ASP, NDP and five recorders in this order, the status of the
    parts, of the antennas and of the outputs, and the settings.  _partial: the intervals of DR5 are not read (see below). *)
Lemma C107_sdm_partial_proof : forall z bs rest, sdm_file z bs -> exists d, parse_sdm (bs ++ rest) = Ok d /\
  Forall2 status_is (z_status z) (d_station d :: d_shl d :: d_asp d :: d_ndp d :: d_dr d) /\
  d_fee d = z_parts z (cs "eFEEStat") /\ d_rpd d = z_parts z (cs "eRPDStat") /\ d_sep d = z_parts z (cs "eSEPStat") /\
  table [32; 16] (z_parts z (cs "eARBStat")) (d_arb d) /\ table [16; 64] (z_parts z (cs "eSnapStat")) (d_snap d) /\
  d_server d = z_parts z (cs "eServerStat") /\ d_drstat d = z_parts z (cs "eDRStat") /\
  table [256; 2] (z_ants z (cs "ant_stat")) (d_ant d) /\ table [5] (z_ants z (cs "ndpo_stat")) (d_ndpo d) /\
  (forall k n, In (k, n) sdm_systems -> entry (d_report d) k = Some (scalar (z_set z) ("mrp_" ++ n)) /\ entry (d_update d) k = Some (scalar (z_set z) ("mup_" ++ n))) /\
  table [256] (z_set z (cs "fee")) (d_power d) /\ d_filter d = z_set z (cs "asp_flt") /\ d_at1 d = z_set z (cs "asp_at1") /\
  d_at2 d = z_set z (cs "asp_at2") /\ d_at3 d = z_set z (cs "asp_at3") /\ d_gain d = scalar (z_set z) "drx_gain".
Proof.
  intros [zs zp za zt] bs rest (sb & pb & ab & tb & -> & ST & L9 & SP & SA & SS). cbn [z_status z_parts z_ants z_set] in *.
  destruct zs as [|v1 zs]; [discriminate|]. destruct zs as [|v2 zs]; [discriminate|]. destruct zs as [|v3 zs]; [discriminate|]. destruct zs as [|v4 zs]; [discriminate|].
  assert (L5 : length zs = n_dr) by (change n_dr with 5%nat; cbn in L9; lia).
  inversion ST as [|? b1 ? ? S1 ST1]; subst. inversion ST1 as [|? b2 ? ? S2 ST2]; subst. inversion ST2 as [|? b3 ? ? S3 ST3]; subst.
  inversion ST3 as [|? b4 ? sb5 S4 ST4]; subst. clear ST ST1 ST2 ST3. cbn [concat]. rewrite <- !app_assoc. unfold parse_sdm.
  destruct (status_ok v1 b1 (b2 ++ b3 ++ b4 ++ concat sb5 ++ pb ++ ab ++ tb ++ rest) S1) as (s1 & -> & E1).
  destruct (status_ok v2 b2 (b3 ++ b4 ++ concat sb5 ++ pb ++ ab ++ tb ++ rest) S2) as (s2 & -> & E2).
  destruct (status_ok v3 b3 (b4 ++ concat sb5 ++ pb ++ ab ++ tb ++ rest) S3) as (s3 & -> & E3).
  destruct (status_ok v4 b4 (concat sb5 ++ pb ++ ab ++ tb ++ rest) S4) as (s4 & -> & E4).
  destruct (statuses_ok zs sb5 ST4 (pb ++ ab ++ tb ++ rest)) as (l & R & F). rewrite L5 in R. rewrite R.
  rewrite (st_read _ _ subsubsys_eq _ _ _ _ SP) by (eapply st_fresh; [exact subsubsys_eq|exact SP]).
  destruct (st_am _ _ subsubsys_eq parts_nd _ _ "eARBStat" [32; 16] SP) as (g1 & G1 & G1');
    [right; do 3 right; left; reflexivity|discriminate|repeat constructor; lia|]. rewrite G1. cbn [bind].
  destruct (st_am _ _ subsubsys_eq parts_nd _ _ "eSnapStat" [16; 64] SP) as (g2 & G2 & G2');
    [right; do 4 right; left; reflexivity|discriminate|repeat constructor; lia|]. rewrite G2. cbn [bind].
  rewrite (st_read _ _ antsf_eq _ _ _ _ SA) by (eapply st_fresh; [exact antsf_eq|exact SA]).
  destruct (st_am _ _ antsf_eq ants_nd _ _ "ant_stat" [256; 2] SA) as (g3 & G3 & G3');
    [right; left; reflexivity|discriminate|repeat constructor; lia|]. rewrite G3. cbn [bind].
  destruct (st_am _ _ antsf_eq ants_nd _ _ "ndpo_stat" [5] SA) as (g4 & G4 & G4');
    [right; right; left; reflexivity|discriminate|repeat constructor; lia|]. rewrite G4. cbn [bind].
  rewrite (st_read _ _ settings_eq _ _ _ _ SS) by (eapply st_fresh; [exact settings_eq|exact SS]).
  destruct (st_am _ _ settings_eq settings_nd _ _ "fee" [256] SS) as (g5 & G5 & G5');
    [left; do 18 right; left; reflexivity|discriminate|repeat constructor; lia|]. rewrite G5. cbn [bind].
  assert (B : forall n, existsb (str_eqb (cs n)) (map d_name settings_fields) = true -> a1 settings tb n = scalar zt n)
    by (intros n Hn; now apply (st_a1 _ _ settings_eq settings_nd)).
  eexists. split; [reflexivity|]. cbn [d_station d_shl d_asp d_ndp d_dr d_fee d_rpd d_sep d_arb d_snap d_server d_drstat d_ant d_ndpo d_report d_update d_power d_filter d_at1 d_at2 d_at3 d_gain].
  split; [repeat (constructor; [assumption|]); assumption|].
  rewrite (st_al _ _ subsubsys_eq parts_nd _ _ "eFEEStat" SP), (st_al _ _ subsubsys_eq parts_nd _ _ "eRPDStat" SP), (st_al _ _ subsubsys_eq parts_nd _ _ "eSEPStat" SP),
    (st_al _ _ subsubsys_eq parts_nd _ _ "eServerStat" SP), (st_al _ _ subsubsys_eq parts_nd _ _ "eDRStat" SP) by reflexivity.
  rewrite (st_al _ _ settings_eq settings_nd _ _ "asp_flt" SS), (st_al _ _ settings_eq settings_nd _ _ "asp_at1" SS),
    (st_al _ _ settings_eq settings_nd _ _ "asp_at2" SS), (st_al _ _ settings_eq settings_nd _ _ "asp_at3" SS) by reflexivity.
  rewrite (B "drx_gain"%string) by reflexivity.
  do 3 (split; [reflexivity|]). split; [exact G1'|]. split; [exact G2'|]. do 2 (split; [reflexivity|]). split; [exact G3'|]. split; [exact G4'|].
  split; [|split; [exact G5'|repeat split]].
  intros k n IN. unfold settings_dict. unfold sdm_systems in IN.
  repeat (destruct IN as [IN|IN]; [inversion IN; subst; cbn; rewrite !B by reflexivity; auto|]). destruct IN.
Qed.

(** The property is violated for the intervals of DR5, which are -1 whatever the file says. *)
Lemma C107_DR5_refuted_proof : forall file d, parse_sdm file = Ok d -> entry (d_report d) "DR5" = Some (-1) /\ entry (d_update d) "DR5" = Some (-1).
Proof.
  intros file d. unfold parse_sdm. destruct (read_status file) as [s1 r1]. destruct (read_status r1) as [s2 r2]. destruct (read_status r2) as [s3 r3].
  destruct (read_status r3) as [s4 r4]. destruct (read_statuses n_dr r4) as [l r5]. destruct (readinto (fresh subsubsys) r5) as [q r6].
  destruct (am subsubsys q "eARBStat") as [arb|]; [|discriminate]. cbn [bind]. destruct (am subsubsys q "eSnapStat") as [snap|]; [|discriminate]. cbn [bind].
  destruct (readinto (fresh antsf) r6) as [n r7]. destruct (am antsf n "ant_stat") as [ant|]; [|discriminate]. cbn [bind].
  destruct (am antsf n "ndpo_stat") as [ndpo|]; [|discriminate]. cbn [bind]. destruct (readinto (fresh settings) r7) as [s r8].
  destruct (am settings s "fee") as [fee|]; [|discriminate]. cbn [bind]. intro E. inversion E; subst. split; reflexivity.
Qed.

(** It is violated for a file that ends early: every file, the empty one included, is read without an error. *)
Lemma C107_short_refuted_proof : forall file, exists d, parse_sdm file = Ok d.
Proof.
  intro file. unfold parse_sdm. destruct (read_status file) as [s1 r1]. destruct (read_status r1) as [s2 r2]. destruct (read_status r2) as [s3 r3].
  destruct (read_status r3) as [s4 r4]. destruct (read_statuses n_dr r4) as [l r5]. destruct (readinto (fresh subsubsys) r5) as [q r6].
  destruct (am_total subsubsys q "eARBStat" [32; 16]) as (g1 & ->); [rewrite subsubsys_eq; reflexivity|discriminate|repeat constructor; lia|]. cbn [bind].
  destruct (am_total subsubsys q "eSnapStat" [16; 64]) as (g2 & ->); [rewrite subsubsys_eq; reflexivity|discriminate|repeat constructor; lia|]. cbn [bind].
  destruct (readinto (fresh antsf) r6) as [n r7].
  destruct (am_total antsf n "ant_stat" [256; 2]) as (g3 & ->); [rewrite antsf_eq; reflexivity|discriminate|repeat constructor; lia|]. cbn [bind].
  destruct (am_total antsf n "ndpo_stat" [5]) as (g4 & ->); [rewrite antsf_eq; reflexivity|discriminate|repeat constructor; lia|]. cbn [bind].
  destruct (readinto (fresh settings) r7) as [s r8].
  destruct (am_total settings s "fee" [256]) as (g5 & ->); [rewrite settings_eq; reflexivity|discriminate|repeat constructor; lia|]. cbn [bind]. eauto.
Qed.

(** It is violated by str() of a status, which is an error before and after a file was read. *)
Lemma C107_str_refuted_proof : forall s, exists e, status_str s = Raise e.
Proof.
  intros [n|n]; eexists; reflexivity.
Qed.

(** Updating antennas: each antenna of the list with a stand from 1 to 256 and a polarization 0 or 1 gets the status the file has for it,
    keeps its stand and polarization, and other antennas keep theirs. *)
Lemma C107_update_proof : forall t l ants heap, table [256; 2] l t ->
  Forall (fun a => let '(stand, pol, _) := heap a in 1 <= stand <= 256 /\ 0 <= pol <= 1) ants ->
  exists heap', update_antennas t heap ants = Ok (ants, heap') /\
    (forall a, In a ants -> let '(stand, pol, _) := heap a in
       exists s, heap' a = (stand, pol, s) /\ nth_error l (Z.to_nat (2 * (stand - 1) + pol)) = Some s) /\
    (forall a, ~ In a ants -> heap' a = heap a).
Proof.
  intros t l ants heap [SH GET]. revert heap. induction ants as [|a ants IH]; intros heap F.
  - exists heap. split; [reflexivity|]. split; [intros x []|reflexivity].
  - inversion F as [|? ? HA F']; subst. cbn [update_antennas]. destruct (heap a) as [[stand pol] st] eqn:EA. destruct HA as [HS HP].
    destruct (entry_get t 256 2 (stand - 1) pol SH ltac:(lia)) as [E _]. destruct E as (s & E1 & E2); [lia|].
    rewrite GET in E2 by (cbn; lia). cbn [row_major size fold_right] in E2.
    replace ((stand - 1) * (2 * 1) + (pol * 1 + 0)) with (2 * (stand - 1) + pol) in E2 by lia.
    rewrite E1. cbn [bind].
    match goal with |- context [update_antennas t ?h ants] => destruct (IH h) as (h' & U & A & B) end.
    { apply Forall_forall. intros x IX. rewrite Forall_forall in F'. specialize (F' x IX). destruct (Z.eqb_spec x a); [cbv beta iota; lia|]. exact F'. }
    rewrite U. cbn [bind]. exists h'. split; [reflexivity|]. split.
    + intros x IX. destruct (in_dec Z.eq_dec x ants) as [IN|NI].
      * specialize (A x IN). revert A. destruct (Z.eqb_spec x a) as [EXA|NE]; intro A; [|exact A]. rewrite EXA in A |- *. rewrite EA. exact A.
      * destruct IX as [<-|IX]; [|contradiction]. rewrite EA. exists s. split; [|exact E2]. rewrite (B a NI), Z.eqb_refl. reflexivity.
    + intros x NX. rewrite B by (intro; apply NX; now right). destruct (Z.eqb_spec x a) as [->|]; [contradiction NX; now left|reflexivity].
Qed.

(** The property is violated for stands that are not there: stand 0 gets the status of stand 256.  A stand above 256 is an error. *)
Lemma C107_stand_refuted_proof : forall t l heap a, table [256; 2] l t ->
  (forall pol st, heap a = (0, pol, st) -> 0 <= pol <= 1 ->
     exists heap' s, update_antennas t heap [a] = Ok ([a], heap') /\ heap' a = (0, pol, s) /\ nth_error l (Z.to_nat (510 + pol)) = Some s) /\
  (forall stand pol st, heap a = (stand, pol, st) -> 256 < stand -> 0 <= pol <= 1 -> update_antennas t heap [a] = Raise IndexError).
Proof.
  intros t l heap a [SH GET]. split.
  - intros pol st EA HP. cbn [update_antennas]. rewrite EA. destruct (entry_get t 256 2 (0 - 1) pol SH ltac:(lia)) as (_ & E & _).
    destruct E as (s & E1 & E2); [reflexivity|lia|]. rewrite E1. cbn [bind]. eexists _, s. split; [reflexivity|]. cbv beta. rewrite Z.eqb_refl. split; [reflexivity|].
    rewrite GET in E2 by (cbn; lia). rewrite <- E2. f_equal. f_equal. cbn [row_major size fold_right]. lia.
  - intros stand pol st EA HS HP. cbn [update_antennas]. rewrite EA. destruct (entry_get t 256 2 (stand - 1) pol SH ltac:(lia)) as (_ & _ & E).
    rewrite E by lia. reflexivity.
Qed.

(** The property is violated for the given antennas, which are changed although the returned list is called new: it holds the same
    objects. *)
Lemma C107_in_place_refuted_proof : exists t l heap heap', table [1; 2] l t /\ heap 5 = (1, 0, 0) /\
  update_antennas t heap [5] = Ok ([5], heap') /\ heap' 5 = (1, 0, 3).
Proof.
  exists (Node [Node [Leaf 3; Leaf 2]]), [3; 2], (fun _ => (1, 0, 0)). eexists. split; [|split; [reflexivity|split; [reflexivity|reflexivity]]].
  split.
  - eexists. split; [reflexivity|]. split; [reflexivity|]. constructor; [|constructor]. eexists. split; [reflexivity|]. split; [reflexivity|].
    repeat (constructor; [eexists; reflexivity|]). constructor.
  - intros idx H. destruct idx as [|i [|j [|]]]; cbn in H; try tauto. assert (i = 0) as -> by lia. assert (J : j = 0 \/ j = 1) by lia.
    destruct J as [-> | ->]; reflexivity.
Qed.

(** A concrete file, and a table for it. *)
Lemma C107_example_proof : exists z bs, sdm_file z bs /\ scalar (z_set z) "mrp_dr5" = 60 /\ map (fun v => scalar v "summary") (z_status z) = [1; 2; 3; 4; 5; 1; 1; 1; 1] /\
  nth_error (z_ants z (cs "ant_stat")) 3 = Some 3.
Proof.
  set (sv := fun n => vals status_fields [("summary", [n])]%string). set (pv := vals parts_fields []).
  set (av := vals ants_fields [("ant_stat"%string, [0; 0; 0; 3] ++ repeat 1 508)]). set (tv := vals settings_fields [("mrp_dr5", [60])]%string).
  destruct (stored_some status_fields (sv 1)) as (b1 & S1); [vm_compute; reflexivity|]. destruct (stored_some status_fields (sv 2)) as (b2 & S2); [vm_compute; reflexivity|].
  destruct (stored_some status_fields (sv 3)) as (b3 & S3); [vm_compute; reflexivity|]. destruct (stored_some status_fields (sv 4)) as (b4 & S4); [vm_compute; reflexivity|].
  destruct (stored_some status_fields (sv 5)) as (b5 & S5); [vm_compute; reflexivity|].
  destruct (stored_some parts_fields pv) as (pb & SP); [vm_compute; reflexivity|]. destruct (stored_some ants_fields av) as (ab & SA); [vm_compute; reflexivity|].
  destruct (stored_some settings_fields tv) as (tb & ST); [vm_compute; reflexivity|].
  exists (mkSdmSpec [sv 1; sv 2; sv 3; sv 4; sv 5; sv 1; sv 1; sv 1; sv 1] pv av tv), (concat [b1; b2; b3; b4; b5; b1; b1; b1; b1] ++ pb ++ ab ++ tb).
  split; [|split; [reflexivity|split; reflexivity]].
  exists [b1; b2; b3; b4; b5; b1; b1; b1; b1], pb, ab, tb. split; [reflexivity|]. split; [repeat (constructor; [assumption|]); constructor|].
  split; [reflexivity|]. auto.
Qed.
