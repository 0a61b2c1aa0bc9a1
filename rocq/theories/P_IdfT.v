(** Interferometer definition files: the theorems. *)
From Coq Require Import Ascii String.
From Coq Require Import List ZArith Bool Lia QArith Qround Qabs Lqa Permutation Sorted.
From Verif Require Import M_Str P_Str P_Bar M_Sdf S_Sdf S_SdfValid P_Sdf P_SdfRun P_SdfObs P_SdfAll P_SdfBack P_SdfValid M_Idf S_Idf S_IdfValid P_Idf P_IdfAll P_IdfValid P_IdfSample.
Import ListNotations.
Open Scope Z_scope.
Ltac Zify.zify_post_hook ::= Z.div_mod_to_equations.

(** Every valid project that is written: what is read from the file is [back_idf] (a project, or the exception when a scan
    without alternate phase centers follows one with them). *)
Lemma C117_what_comes_back_proof : forall visible alt_visible alt_near j t, iproj_wf j -> render_idf visible alt_visible alt_near j = inr t -> parse_idf t = back_idf (in_order j).
Proof. exact render_parse_idf. Qed.
Lemma C117_what_comes_back_example_proof : let j := ip1 [scan1 20000 ToSun (-1) 2 []; scan1 0 (ToRaDec 5 (-30) (100%Q, 0%Q)) 6 (-1) [apc1 5 (0%Q, 0%Q); apc1 6 (1%Q, 2%Q)]] in
  iproj_wf j /\ exists t, render_idf yes yes2 yes2 j = inr t.
Proof.
  cbv zeta. set (l := [scan1 20000 ToSun (-1) 2 []; scan1 0 (ToRaDec 5 (-30) (100%Q, 0%Q)) 6 (-1) [apc1 5 (0%Q, 0%Q); apc1 6 (1%Q, 2%Q)]]).
  assert (W : Forall scan_wf l). { constructor; [apply scan1_wf; auto; lia|]. constructor; [|constructor]. apply scan1_wf; [lia|repeat split; vm_compute; congruence|]. repeat constructor; try (apply apc1_wf; repeat split; vm_compute; congruence); try (apply cleanb; vm_compute; reflexivity); try (right; right; left; reflexivity); vm_compute; congruence. }
  split; [apply ip1_wf; exact W|]. destruct (ip1_back l W) as (t & R & _); [vm_compute; reflexivity|]. exists t. exact R.
Qed.
(** PARTIAL (missing: scans that leave out what an earlier one has, see the refutations): the project comes back as it was,
    with positions to nine decimals and proper motions to one, if what one scan sets the later ones set as well. *)
Lemma C117_round_trip_partial_proof : forall visible alt_visible alt_near j t, iproj_wf j -> even_scans (r_scans (i_run (in_order j))) -> render_idf visible alt_visible alt_near j = inr t ->
  parse_idf t = inr (copy_idf (in_order j)).
Proof. intros v av an j t W E R. rewrite <- even_idf by auto. apply (render_parse_idf v av an); auto. Qed.
Lemma C117_round_trip_partial_example_proof : let j := ip1 [scan1 20000 (ToRaDec 5 (-30) (100%Q, 0%Q)) 6 2 [apc1 5 (1%Q, 2%Q)]; scan1 0 ToSun (-1) 2 []] in
  iproj_wf j /\ even_scans (r_scans (i_run (in_order j))) /\ iproj_ok yes yes2 yes2 j = inr true.
Proof.
  cbv zeta. split; [|split].
  - apply ip1_wf. constructor; [|constructor; [|constructor]]; apply scan1_wf; auto; try lia; [repeat split; vm_compute; congruence|]. constructor; [|constructor]. apply apc1_wf. repeat split; vm_compute; congruence.
  - assert (E : r_scans (i_run (in_order (ip1 [scan1 20000 (ToRaDec 5 (-30) (100%Q, 0%Q)) 6 2 [apc1 5 (1%Q, 2%Q)]; scan1 0 ToSun (-1) 2 []]))) = [scan1 0 ToSun (-1) 2 []; scan1 20000 (ToRaDec 5 (-30) (100%Q, 0%Q)) 6 2 [apc1 5 (1%Q, 2%Q)]]) by reflexivity.
    rewrite E. split; repeat constructor; cbn; intros; try congruence; tauto.
  - vm_compute. reflexivity.
Qed.
(** A run with one scan: nothing to inherit but by its alternate phase centers. *)
Lemma C117_one_scan_proof : forall visible alt_visible alt_near j t o, iproj_wf j -> r_scans (i_run j) = [o] -> ForallOrdPairs (fun a b => moves (a_pm a) -> moves (a_pm b)) (n_alts o) ->
  render_idf visible alt_visible alt_near j = inr t -> parse_idf t = inr (copy_idf j).
Proof.
  intros v av an j t o W L P R. assert (E : in_order j = j). { unfold in_order. rewrite L. cbn [sort_scans fold_right insert_scan]. rewrite <- L. destruct j as [? ? ? ? ? []]. reflexivity. }
  rewrite <- E. apply (C117_round_trip_partial_proof v av an); auto. rewrite E, L. split; [repeat constructor|]. constructor; [auto|constructor].
Qed.
Lemma C117_one_scan_example_proof : ForallOrdPairs (fun a b => moves (a_pm a) -> moves (a_pm b)) (n_alts (scan1 0 ToSun (-1) (-1) [apc1 5 (0%Q, 0%Q); apc1 6 (1%Q, 2%Q)])) /\
  iproj_ok yes yes2 yes2 (ip1 [scan1 0 ToSun (-1) (-1) [apc1 5 (0%Q, 0%Q); apc1 6 (1%Q, 2%Q)]]) = inr true.
Proof.
  split; [|vm_compute; reflexivity]. repeat constructor. cbn. intros _ [H _]. vm_compute in H. discriminate.
Qed.
(** A proper motion: within 0.05 mas/yr, and exactly if it has no more than one decimal. *)
Lemma C117_proper_motion_proof : forall q, (Qabs (decimals 1 q - q) <= 1 # 20)%Q /\ forall k, (q == k # 10)%Q -> (decimals 1 q == q)%Q.
Proof.
  intro q. split; [exact (decimals_near 1 q)|]. intros k K. apply (decimals_exact 1 k). change (10 ^ Z.of_nat 1) with 10. rewrite K. unfold Qeq. cbn [Qnum Qden Qmult inject_Z]. lia.
Qed.
(** A scan without alternate phase centers after one that has them: the file cannot be read. *)
Lemma C117_alternates_refuted_proof : exists j t o1 o2, iproj_wf j /\ render_idf yes yes2 yes2 j = inr t /\ r_scans (i_run j) = [o1; o2] /\ length (n_alts o1) = 1%nat /\ n_alts o2 = [] /\ parse_idf t = inl RuntimeError.
Proof.
  set (o1 := scan1 0 ToSun (-1) (-1) [apc1 5 (0%Q, 0%Q)]). set (o2 := scan1 20000 ToSun (-1) (-1) []). exists (ip1 [o1; o2]).
  assert (W : Forall scan_wf [o1; o2]). { constructor; [|constructor; [|constructor]]; apply scan1_wf; auto; try lia. constructor; [|constructor]. apply apc1_wf. repeat split; vm_compute; congruence. }
  destruct (ip1_back [o1; o2] W) as (t & R & P); [vm_compute; reflexivity|]. exists t, o1, o2. split; [apply ip1_wf; auto|]. split; [exact R|]. split; [reflexivity|]. split; [reflexivity|]. split; [reflexivity|]. exact P.
Qed.
(** The proper motion, the gain and the filter of the analog signal processors of a scan are inherited by the next ones. *)
Lemma C117_settings_refuted_proof : exists j t p o1 o2 b ra de pm, iproj_wf j /\ render_idf yes yes2 yes2 j = inr t /\ parse_idf t = inr p /\ r_scans (i_run j) = [o1; o2] /\ nth_error (r_scans (i_run p)) 1 = Some b /\
  n_to o2 = ToRaDec 5 (-30) (0%Q, 0%Q) /\ n_to b = ToRaDec ra de pm /\ (fst pm == 100 /\ snd pm == -5 # 2)%Q /\ n_gain o2 = -1 /\ n_gain b = 6 /\ n_asp o2 = -1 /\ n_asp b = 2.
Proof.
  set (o1 := scan1 0 (ToRaDec 5 (-30) (100%Q, (-5 # 2)%Q)) 6 2 []). set (o2 := scan1 20000 (ToRaDec 5 (-30) (0%Q, 0%Q)) (-1) (-1) []). exists (ip1 [o1; o2]).
  assert (W : Forall scan_wf [o1; o2]). { constructor; [|constructor; [|constructor]]; apply scan1_wf; auto; try lia; repeat split; vm_compute; congruence. }
  destruct (ip1_back [o1; o2] W) as (t & R & P); [vm_compute; reflexivity|]. exists t. eexists. exists o1, o2. eexists. eexists. eexists. eexists. split; [apply ip1_wf; auto|]. split; [exact R|]. split; [exact P|]. split; [reflexivity|]. split; [reflexivity|].
  split; [reflexivity|]. split; [reflexivity|]. split; [split; vm_compute; reflexivity|]. repeat (split; [reflexivity|]). reflexivity.
Qed.
(** So is the proper motion of an alternate phase center by the next one of the same scan. *)
Lemma C117_alternate_motion_refuted_proof : exists j t p o b a1 a2 b2, iproj_wf j /\ render_idf yes yes2 yes2 j = inr t /\ parse_idf t = inr p /\ r_scans (i_run j) = [o] /\ r_scans (i_run p) = [b] /\
  n_alts o = [a1; a2] /\ nth_error (n_alts b) 1 = Some b2 /\ a_pm a2 = (0%Q, 0%Q) /\ (fst (a_pm b2) == 3 /\ snd (a_pm b2) == 4)%Q.
Proof.
  set (a1 := apc1 5 (3%Q, 4%Q)). set (a2 := apc1 6 (0%Q, 0%Q)). set (o := scan1 0 ToSun (-1) (-1) [a1; a2]). exists (ip1 [o]).
  assert (W : Forall scan_wf [o]). { constructor; [|constructor]. apply scan1_wf; auto; try lia. constructor; [|constructor; [|constructor]]; apply apc1_wf; repeat split; vm_compute; congruence. }
  destruct (ip1_back [o] W) as (t & R & P); [vm_compute; reflexivity|]. exists t. eexists. exists o. eexists. exists a1, a2. eexists. split; [apply ip1_wf; auto|]. split; [exact R|]. split; [exact P|]. split; [reflexivity|]. split; [reflexivity|]. split; [reflexivity|]. split; [reflexivity|]. split; [reflexivity|]. split; vm_compute; reflexivity.
Qed.
(** A scan without remarks comes back with some. *)
Lemma C117_remarks_refuted_proof : exists j t p o b, iproj_wf j /\ render_idf yes yes2 yes2 j = inr t /\ parse_idf t = inr p /\ r_scans (i_run j) = [o] /\ r_scans (i_run p) = [b] /\
  n_comments o = None /\ n_comments b = Some (tx "None provided").
Proof.
  set (o := mkScan (tx "3C196") (tx "target") None 60000 0 10000 ToSun 1000000000 1500000000 7 (-1) (-1) []). exists (ip1 [o]).
  assert (W : Forall scan_wf [o]). { constructor; [|constructor]. split; unfold o; cbn [n_target n_intent n_comments n_mpm n_to n_alts]; [apply cleanb; vm_compute; reflexivity|right; right; left; reflexivity|exact Logic.I|lia|exact Logic.I|constructor]. }
  destruct (ip1_back [o] W) as (t & R & P); [vm_compute; reflexivity|]. exists t. eexists. exists o. eexists. split; [apply ip1_wf; auto|]. split; [exact R|]. split; [exact P|]. repeat (split; [reflexivity|]). reflexivity.
Qed.

(** Exactly the good runs are valid: project id of at most eight characters, run number 1 to 9999, no station twice, one
    filter for all scans, no two scans at the same time, each scan within the limits and the data of all stations within 10 TB each. *)
Lemma C118_valid_proof : forall visible alt_visible alt_near j, iproj_ok visible alt_visible alt_near j = inr true <-> (length (i_id j) <= 8)%nat /\ good_run visible alt_visible alt_near (i_run j).
Proof. exact iproj_iff. Qed.
Lemma C118_valid_example_proof : let j := ip1 [scan1 20000 ToSun (-1) 2 []; scan1 0 (ToRaDec 5 (-30) (100%Q, 0%Q)) 6 (-1) [apc1 5 (0%Q, 0%Q)]] in
  good_run yes yes2 yes2 (i_run j) /\ iproj_ok (fun o => negb (n_mpm o =? 0)) yes2 yes2 j = inr false.
Proof. split; [|vm_compute; reflexivity]. apply iproj_iff. vm_compute. reflexivity. Qed.
(** Only valid projects are written. *)
Lemma C118_only_valid_written_proof : forall visible alt_visible alt_near j t, render_idf visible alt_visible alt_near j = inr t -> (length (i_id j) <= 8)%nat /\ good_run visible alt_visible alt_near (i_run j).
Proof. intros v av an j t H. apply iproj_iff. unfold render_idf in H. destruct (iproj_ok v av an j) as [e|[]]; congruence. Qed.
Lemma C118_only_valid_written_example_proof : exists t, render_idf yes yes2 yes2 (ip1 [scan1 0 ToSun (-1) (-1) []]) = inr t.
Proof. eexists. unfold render_idf. assert (E : iproj_ok yes yes2 yes2 (ip1 [scan1 0 ToSun (-1) (-1) []]) = inr true) by (vm_compute; reflexivity). rewrite E. reflexivity. Qed.
(** Whatever scan is made from the keywords of a file has one of the four intents and coordinates on the sky, and so has each of its
    alternate phase centers. *)
Lemma C117_scans_made_proof : forall t us o, create_scan t us = inr o ->
  known_intent (n_intent o) /\ (forall ra de pm, n_to o = ToRaDec ra de pm -> (0 <= ra < 24 /\ -90 <= de <= 90)%Q) /\
  Forall (fun a => known_intent (a_intent a) /\ (0 <= a_ra a < 24 /\ -90 <= a_dec a <= 90)%Q) (n_alts o).
Proof.
  assert (PI : forall v i, put_intent v = inr i -> known_intent i).
  { intros v i H. unfold put_intent in H. destruct (existsb (str_eqb (lower v)) intents) eqn:E; [|discriminate]. injection H as <-. apply existsb_exists in E.
    destruct E as (x & I & Q). destruct (str_eqb_spec (lower v) x) as [->|]; [exact I|discriminate]. }
  assert (RD : forall ra de, radec_ok ra de = true -> (0 <= ra < 24 /\ -90 <= de <= 90)%Q).
  { intros ra de H. unfold radec_ok in H. rewrite andb_true_iff, !negb_true_iff, !orb_false_iff, !negb_false_iff, !Qle_bool_iff in H. destruct H as ((A & B) & C & D).
    split; split; try assumption. apply Qnot_le_lt. intro X. apply Qle_bool_iff in X. congruence. }
  assert (AP : forall us xs, make_apcs us = inr xs -> Forall (fun a => known_intent (a_intent a) /\ (0 <= a_ra a < 24 /\ -90 <= a_dec a <= 90)%Q) xs).
  { intros us. induction us as [|a us IH]; intros xs H; cbn [make_apcs] in H; [injection H as <-; constructor|]. unfold make_apc in H.
    destruct (put_intent (a_intent (b_apc a))) as [e|i] eqn:E; [discriminate|]. destruct (radec_ok (a_ra (b_apc a)) (a_dec (b_apc a))) eqn:R; [|discriminate].
    destruct (make_apcs us) as [e|ys]; [discriminate|]. injection H as <-. constructor; [|auto]. cbn [a_intent a_ra a_dec]. split; [eapply PI; exact E|apply RD; exact R]. }
  intros t us o H. unfold create_scan in H. destruct (v_mjd t) as [mjd|]; [|discriminate]. destruct (v_mpm t) as [mpm|]; [|discriminate]. destruct (norm_start mjd mpm) as [day ms].
  assert (G : forall p ra de (q : bool), match v_dur t with None => inl NameError | Some d => match put_intent (v_intent t) with inl e => inl e | inr i =>
      if negb (radec_ok ra de) then inl ValueError else if negb (kp_nalt (v_kept t) =? Z.of_nat (length us)) then inl RuntimeError
      else match make_apcs us with inl e => inl e | inr xs => inr (mkScan (v_target t) i (v_comments t) day ms d p (v_f1 t) (v_f2 t) (v_filter t) (kp_gain (v_kept t)) (kp_asp (v_kept t)) xs) end end end = inr o ->
      n_to o = p /\ known_intent (n_intent o) /\ (0 <= ra < 24 /\ -90 <= de <= 90)%Q /\ Forall (fun a => known_intent (a_intent a) /\ (0 <= a_ra a < 24 /\ -90 <= a_dec a <= 90)%Q) (n_alts o)).
  { intros p ra de _ X. destruct (v_dur t) as [d|]; [|discriminate]. destruct (put_intent (v_intent t)) as [e|i] eqn:E; [discriminate|].
    destruct (radec_ok ra de) eqn:R; cbn [negb] in X; [|discriminate]. destruct (kp_nalt (v_kept t) =? Z.of_nat (length us)); cbn [negb] in X; [|discriminate].
    destruct (make_apcs us) as [e|xs] eqn:A; [discriminate|]. injection X as <-. cbn [n_to n_intent n_alts]. split; [reflexivity|]. split; [eapply PI; exact E|]. split; [apply RD; exact R|eapply AP; exact A]. }
  cbv zeta in H. destruct (str_eqb (v_mode t) (tx "TRK_RADEC")); [|destruct (str_eqb (v_mode t) (tx "TRK_SOL")); [|destruct (str_eqb (v_mode t) (tx "TRK_JOV")); [|discriminate]]];
    apply (G _ _ _ true) in H; destruct H as (-> & K & Q & A); (split; [exact K|split; [|exact A]]); intros ra de pm E; try discriminate E. injection E as <- <- _. exact Q.
Qed.
Lemma C117_scans_made_example_proof : exists o, create_scan (mkStemp 1 (tx "3C196") (tx "Target") None (Some 60000) (Some 0) (Some 10000) (tx "TRK_RADEC") 5 (-30) 1 2 7 (mkKept (0%Q, 0%Q) 1 (-1) (-1))) [mkAt 1 (mkApc (tx "x") (tx "PHASECAL") 5 40 (0%Q, 0%Q))] = inr o /\ length (n_alts o) = 1%nat.
Proof. eexists. split; vm_compute; reflexivity. Qed.
(** validate() gives an answer unless a scan has alternate phase centers and no tuning above 0; then it is a ZeroDivisionError. *)
Lemma C118_answer_partial_proof : forall visible alt_visible alt_near j,
  ((exists b, iproj_ok visible alt_visible alt_near j = inr b) <-> Forall (fun o => n_alts o = [] \/ Z.max (n_f1 o) (n_f2 o) <> 0) (r_scans (i_run j))) /\
  (forall e, iproj_ok visible alt_visible alt_near j = inl e -> e = ZeroDivisionError).
Proof.
  intros v av an j. split; [|apply iproj_zero]. pose proof (iproj_raises v av an j) as R. split.
  - intros [b B]. apply Forall_forall. intros o O. destruct (n_alts o) eqn:A; [left; reflexivity|]. right. intro Z0. assert (X : Exists no_beam (r_scans (i_run j))). { apply Exists_exists. exists o. split; auto. split; auto. rewrite A. discriminate. }
    apply R in X. destruct X as [e X]. congruence.
  - intro F. destruct (iproj_ok v av an j) as [e|b] eqn:E; [|eauto]. exfalso. assert (X : Exists no_beam (r_scans (i_run j))) by (apply R; eauto). apply Exists_exists in X. destruct X as (o & O & A & B). rewrite Forall_forall in F. destruct (F o O); contradiction.
Qed.
Lemma C118_answer_partial_example_proof : Forall (fun o => n_alts o = [] \/ Z.max (n_f1 o) (n_f2 o) <> 0) [scan1 0 ToSun (-1) (-1) [apc1 5 (0%Q, 0%Q)]; scan1 20000 ToSun (-1) (-1) []].
Proof. apply Forall_cons; [right; vm_compute; discriminate|]. apply Forall_cons; [left; reflexivity|]. apply Forall_nil. Qed.
(** The exception, instead of the answer that the run is not valid. *)
Lemma C118_answer_refuted_proof : exists j o, r_scans (i_run j) = [o] /\ length (n_alts o) = 1%nat /\ n_f1 o = 0 /\ iproj_ok yes yes2 yes2 j = inl ZeroDivisionError.
Proof.
  set (o := mkScan (tx "3C196") (tx "target") None 60000 0 10000 ToSun 0 0 7 (-1) (-1) [apc1 5 (0%Q, 0%Q)]). exists (ip1 [o]), o. repeat (split; [reflexivity|]). vm_compute. reflexivity.
Qed.

(** One session definition file for each station: session numbers from [sid] on, titles, and an observation for each scan, in
    the order of time, at the time and with the tunings and the filter of the scan. *)
Lemma C119_every_station_proof : forall sec visible alt_visible alt_near f sid j ps, generate_sdfs sec visible alt_visible alt_near f sid j = inr ps ->
  exists scans, Permutation (r_scans (i_run j)) scans /\ StronglySorted (fun a b => n_mjd a * 86400000 + n_mpm a <= n_mjd b * 86400000 + n_mpm b) scans /\ told sec j scans sid ps.
Proof.
  intros sec v av an f sid j ps H. exists (sort_scans (r_scans (i_run j))). split; [apply sort_scans_perm|]. split; [|apply generate_told in H; tauto].
  pose proof (sort_scans_sorted (r_scans (i_run j))) as S. induction S as [|o l S IH F]; constructor; auto. revert F. apply Forall_impl. intros b. unfold begin. lia.
Qed.
Lemma C119_every_station_example_proof : exists ps, generate_sdfs (fun _ => 1%Q) yes yes2 yes2 (mkOffice true (Some 2)) 7 (ip1 [scan1 20000 ToSun (-1) 2 []; scan1 0 (ToRaDec 5 (-30) (100%Q, 0%Q)) 6 (-1) [apc1 5 (0%Q, 0%Q)]]) = inr ps /\ length ps = 2%nat.
Proof.
  set (j := ip1 _). assert (V : iproj_ok yes yes2 yes2 j = inr true) by (vm_compute; reflexivity).
  destruct (proj2 (generate_can (fun _ => 1%Q) yes yes2 yes2 (mkOffice true (Some 2)) 7 j ltac:(discriminate) V)) as [ps P].
  - assert (E : sort_scans (r_scans (i_run j)) = [scan1 0 (ToRaDec 5 (-30) (100%Q, 0%Q)) 6 (-1) [apc1 5 (0%Q, 0%Q)]; scan1 20000 ToSun (-1) 2 []]) by reflexivity. rewrite E.
    split; [discriminate|]. split; [|split; [reflexivity|exists 2; split; [reflexivity|]; intros [|[|k]] o O N; cbn in O; try (injection O as <-; cbn in *; lia || (exfalso; apply N; reflexivity)); destruct k; discriminate]].
    constructor; [|constructor; [exact Logic.I|constructor]]. split; [discriminate|]. repeat split; vm_compute; congruence.
  - exists ps. split; auto. apply generate_told in P. destruct P as (_ & [L _] & _). rewrite L. reflexivity.
Qed.
(** Every one of them is a valid session definition, if a target that is visible in the run is visible for the station. *)
Lemma C119_valid_sessions_proof : forall sec visible alt_visible alt_near f sid j ps seen, generate_sdfs sec visible alt_visible alt_near f sid j = inr ps ->
  1 <= sid -> sid + Z.of_nat (length (r_stations (i_run j))) <= 10000 -> (forall o b, In o (r_scans (i_run j)) -> visible o = true -> does sec o b -> seen b = true) ->
  Forall (fun p => project_ok seen p = inr true) ps.
Proof.
  intros sec v av an f sid j ps seen H S1 S2 V. apply generate_told in H. destruct H as (OK & T & X). apply iproj_iff in OK. destruct OK as [ID G].
  apply (told_valid sec v av an seen j (sort_scans (r_scans (i_run j))) sid ps G ID (sort_scans_perm _) T X S1).
  - destruct T as [L _]. rewrite L. exact S2.
  - intros o b O. apply V. eapply Permutation_in; [symmetry; apply sort_scans_perm|exact O].
Qed.
Lemma C119_valid_sessions_example_proof : let j := ip1 [scan1 20000 ToSun (-1) 2 []] in (exists ps, generate_sdfs (fun _ => 1%Q) yes yes2 yes2 (mkOffice true (Some 0)) 9998 j = inr ps) /\ 9998 + Z.of_nat (length (r_stations (i_run j))) <= 10000.
Proof.
  cbv zeta. set (j := ip1 _). split; [|cbn; lia]. apply generate_can; [discriminate|vm_compute; reflexivity|]. split; [discriminate|]. split; [constructor; [exact Logic.I|constructor]|]. split; [reflexivity|]. exists 0. split; [reflexivity|]. intros [|[|k]] o O N; cbn in O; try discriminate. injection O as <-. exfalso. apply N. reflexivity.
Qed.
(** PARTIAL (missing: valid runs for which nothing is made, see the refutations): when the files of a valid run can be made. *)
Lemma C119_made_partial_proof : forall sec visible alt_visible alt_near f sid j, r_stations (i_run j) <> [] -> iproj_ok visible alt_visible alt_near j = inr true ->
  ((exists ps, generate_sdfs sec visible alt_visible alt_near f sid j = inr ps) <-> can_tell sec f (sort_scans (r_scans (i_run j)))).
Proof. exact generate_can. Qed.
Lemma C119_made_partial_example_proof : can_tell (fun _ => 1%Q) (mkOffice true (Some 1)) (sort_scans [scan1 20000 ToSun (-1) 2 []; scan1 0 ToJupiter (-1) 2 [apc1 5 (0%Q, 0%Q)]]).
Proof.
  assert (E : sort_scans [scan1 20000 ToSun (-1) 2 []; scan1 0 ToJupiter (-1) 2 [apc1 5 (0%Q, 0%Q)]] = [scan1 0 ToJupiter (-1) 2 [apc1 5 (0%Q, 0%Q)]; scan1 20000 ToSun (-1) 2 []]) by reflexivity. rewrite E.
  split; [discriminate|]. split; [repeat constructor|]. split; [reflexivity|]. exists 1. split; [reflexivity|]. intros [|[|k]] o O N; cbn in O; try (injection O as <-; cbn in *; lia || (exfalso; apply N; reflexivity)). destruct k; discriminate.
Qed.
(** A project to which no project office has added anything: nothing is made, whatever the run. *)
Lemma C119_fresh_project_refuted_proof : (forall sec visible alt_visible alt_near sid j ps e, r_stations (i_run j) <> [] -> generate_sdfs sec visible alt_visible alt_near (mkOffice false e) sid j <> inr ps) /\
  exists j, iproj_ok yes yes2 yes2 j = inr true /\ generate_sdfs (fun _ => 1%Q) yes yes2 yes2 (mkOffice false None) 1 j = inl IndexError.
Proof.
  split.
  - intros sec v av an sid j ps e N H. pose proof (generate_told _ _ _ _ _ _ _ _ H) as (V & _). destruct (proj1 (generate_can sec v av an (mkOffice false e) sid j N V)) as (_ & _ & B & _); [eauto|discriminate].
  - exists (ip1 [scan1 0 ToSun (-1) (-1) []]). assert (V : iproj_ok yes yes2 yes2 (ip1 [scan1 0 ToSun (-1) (-1) []]) = inr true) by (vm_compute; reflexivity). split; [exact V|]. unfold generate_sdfs. rewrite V. reflexivity.
Qed.
(** A valid tracked scan without remarks: TypeError.  A valid run without scans: IndexError. *)
Lemma C119_remarks_refuted_proof : (exists j o, r_scans (i_run j) = [o] /\ n_comments o = None /\ iproj_ok yes yes2 yes2 j = inr true /\ generate_sdfs (fun _ => 1%Q) yes yes2 yes2 (mkOffice true (Some 1)) 1 j = inl TypeError) /\
  exists j, r_scans (i_run j) = [] /\ iproj_ok yes yes2 yes2 j = inr true /\ generate_sdfs (fun _ => 1%Q) yes yes2 yes2 (mkOffice true (Some 1)) 1 j = inl IndexError.
Proof.
  split.
  - set (o := mkScan (tx "3C196") (tx "target") None 60000 0 10000 (ToRaDec 5 (-30) (0%Q, 0%Q)) 1000000000 1500000000 7 (-1) (-1) []). exists (ip1 [o]), o. split; [reflexivity|]. split; [reflexivity|].
    assert (V : iproj_ok yes yes2 yes2 (ip1 [o]) = inr true) by (vm_compute; reflexivity). split; [exact V|]. unfold generate_sdfs. rewrite V. reflexivity.
  - exists (ip1 []). split; [reflexivity|]. split; vm_compute; reflexivity.
Qed.
