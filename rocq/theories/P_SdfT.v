(** Session definition files: the theorems. *)
From Coq Require Import Ascii String.
From Coq Require Import List ZArith Bool Lia QArith Qround Qabs Lqa.
From Verif Require Import M_Str P_Str P_Bar M_Sdf S_Sdf S_SdfValid P_Sdf P_SdfRun P_SdfObs P_SdfAll P_SdfBack P_SdfValid P_SdfSample.
Import ListNotations.
Open Scope Z_scope.
Ltac Zify.zify_post_hook ::= Z.div_mod_to_equations.

(** Every valid project that is written can be read, and what is read is [back]: texts, times, durations, tunings and
    filters as they were, coordinates to nine decimals, and settings that are not set as they were set before. *)
Lemma C54_what_comes_back_proof : forall visible j t, proj_wf j -> render visible j = inr t -> parse_sdf t = inr (back (settled j)).
Proof. exact render_parse. Qed.
Lemma C54_what_comes_back_example_proof : let j := sample [plain 20000 (solar true); plain 0 (TRK (RaDec 5 (-30)) 1000000000 0 6 false)] in
  proj_wf j /\ exists t, render (fun _ => true) j = inr t.
Proof.
  cbv zeta. set (l := [plain 20000 (solar true); plain 0 (TRK (RaDec 5 (-30)) 1000000000 0 6 false)]).
  assert (W : Forall obs_wf l) by (apply two_wf; apply plain_wf; try lia; cbn; auto; repeat split; vm_compute; congruence).
  split; [apply sample_wf; exact W|]. destruct (sample_back l W) as (t & R & _); [vm_compute; reflexivity|]. exists t. exact R.
Qed.

(** PARTIAL (missing: observations that leave unset what an earlier one has set, see the refutations): the project
    comes back as it was, with coordinates to nine decimals, if what is set for one observation is set for the later ones. *)
Lemma C54_round_trip_partial_proof : forall visible j t, proj_wf j -> steady (s_obs (j_ses (settled j))) -> render visible j = inr t -> parse_sdf t = inr (copy (settled j)).
Proof. intros visible j t W S R. rewrite <- back_is_copy by auto. apply (render_parse visible); auto. Qed.
Lemma C54_round_trip_partial_example_proof : let j := sample [with_gain 6 (plain 20000 (solar true)); plain 0 (TRK (RaDec 5 (-30)) 1000000000 0 6 false)] in
  proj_wf j /\ steady (s_obs (j_ses (settled j))) /\ project_ok (fun _ => true) j = inr true.
Proof.
  cbv zeta. split; [|split].
  - apply sample_wf. apply two_wf; [apply gain_wf|]; apply plain_wf; try lia; cbn; auto; repeat split; vm_compute; congruence.
  - assert (E : s_obs (j_ses (settled (sample [with_gain 6 (plain 20000 (solar true)); plain 0 (TRK (RaDec 5 (-30)) 1000000000 0 6 false)]))) = [plain 0 (TRK (RaDec 5 (-30)) 1000000000 0 6 false); with_gain 6 (plain 20000 (solar true))]) by reflexivity.
    rewrite E. clear E.
    assert (F : forall f : Z * Z, In f fee256 -> fst f = -1 /\ snd f <> -1 \/ fst f <> -1 /\ snd f = -1 -> exists g, In g fee256 /\ g <> f).
    { intros f I. apply repeat_spec in I. subst f. cbn. lia. }
    split.
    + repeat constructor; cbn [with_gain plain o_fee]; exact F.
    + repeat constructor; cbn [with_gain plain o_fee o_flt o_at1 o_at2 o_at3 o_gain o_bdm o_setup]; auto; try (intros; congruence).
  - vm_compute. reflexivity.
Qed.
(** A session with one observation: nothing to inherit. *)
Lemma C54_one_observation_proof : forall visible j t o, proj_wf j -> s_obs (j_ses j) = [o] -> steady_alone (upd o) -> render visible j = inr t ->
  parse_sdf t = inr (copy (with_ses j (with_obs (j_ses j) [upd o]))).
Proof.
  intros visible j t o W L S R. assert (E : settled j = with_ses j (with_obs (j_ses j) [upd o])) by (unfold settled; rewrite L; reflexivity). rewrite <- E. apply (C54_round_trip_partial_proof visible); auto.
  rewrite E. cbn. split; [auto|]. constructor; [auto|constructor].
Qed.
Lemma C54_one_observation_example_proof : steady_alone (upd (plain 0 (STEPPED 7 true [mkStep 5 6 5000 1000000000 0 true true None; mkStep 5 7 5000 1000000000 0 true false None]))) /\
  project_ok (fun _ => true) (sample [plain 0 (STEPPED 7 true [mkStep 5 6 5000 1000000000 0 true true None; mkStep 5 7 5000 1000000000 0 true false None])]) = inr true.
Proof.
  split; [|vm_compute; reflexivity]. split; try reflexivity.
  - intros f I. cbn in I. apply (repeat_spec 256) in I. subst f. cbn. lia.
  - cbn. intuition congruence.
Qed.
(** Coordinates: within half of the last decimal, and exactly if they have no more than nine decimals. *)
Lemma C54_coordinates_proof : forall q, (Qabs (decimals 9 q - q) <= 1 # 2000000000)%Q /\ forall k, (q == k # 1000000000)%Q -> (decimals 9 q == q)%Q.
Proof.
  intro q. split; [exact (decimals_near 9 q)|]. intros k K. apply (decimals_exact 9 k). change (10 ^ Z.of_nat 9) with 1000000000. rewrite K. unfold Qeq. cbn [Qnum Qden Qmult inject_Z]. lia.
Qed.

(** The high-dynamic-range setting of an observation is inherited by the next ones. *)
Lemma C54_high_dr_refuted_proof : exists j t p o1 o2 b, proj_wf j /\ render (fun _ => true) j = inr t /\ parse_sdf t = inr p /\ s_obs (j_ses j) = [o1; o2] /\
  o_setup o2 = solar false /\ nth_error (s_obs (j_ses p)) 1 = Some b /\ o_setup b = solar true.
Proof.
  set (o1 := plain 0 (solar true)). set (o2 := plain 20000 (solar false)). exists (sample [o1; o2]).
  assert (W : Forall obs_wf [o1; o2]) by (apply two_wf; apply plain_wf; cbn; auto; lia).
  destruct (sample_back [o1; o2] W) as (t & R & P); [vm_compute; reflexivity|]. exists t. eexists. exists o1, o2. eexists. split; [apply sample_wf; auto|]. split; [exact R|]. split; [exact P|]. split; [reflexivity|]. split; [reflexivity|].
  split; [reflexivity|]. reflexivity.
Qed.
(** So are the gain, the beam-dipole mode and the settings of the front ends and the analog signal processors. *)
Lemma C54_settings_refuted_proof : exists j t p o1 o2 b, proj_wf j /\ render (fun _ => true) j = inr t /\ parse_sdf t = inr p /\ s_obs (j_ses j) = [o1; o2] /\
  nth_error (s_obs (j_ses p)) 1 = Some b /\
  o_gain o2 = -1 /\ o_gain b = 6 /\ o_bdm o2 = None /\ o_bdm b <> None /\
  Forall (eq (-1, -1)) (o_fee o2) /\ Forall (eq (1, 1)) (o_fee b) /\ Forall (eq (-1)) (o_flt o2) /\ Forall (eq 3) (o_flt b) /\ Forall (eq (-1)) (o_at1 o2) /\ Forall (eq 12) (o_at1 b).
Proof.
  set (o1 := with_gain 6 (with_bdm (Some (mkBdm 10 (1 # 2) (1 # 2) (tx "X"))) (with_fee (repeat (1, 1) 256) (with_asp (repeat 3 256) (repeat 12 256) (plain 0 (solar true)))))). set (o2 := plain 20000 (solar false)). exists (sample [o1; o2]).
  assert (W : Forall obs_wf [o1; o2]).
  { apply two_wf; [apply gain_wf, bdm_wf; [apply fee_wf, asp_wf|split; [vm_compute; intuition congruence|auto]]|]; apply plain_wf; cbn; auto; lia. }
  destruct (sample_back [o1; o2] W) as (t & R & P); [vm_compute; reflexivity|]. exists t. eexists. exists o1, o2. eexists. split; [apply sample_wf; auto|]. split; [exact R|]. split; [exact P|]. split; [reflexivity|]. split; [reflexivity|].
  repeat (split; [reflexivity || discriminate|]). repeat (split; [apply (all_rep _ _ 256)|]). apply (all_rep _ _ 256).
Qed.
(** A step without its own delays and gains, after one that has them, comes back with those. *)
Lemma C54_step_refuted_proof : exists j t p o ss b c, proj_wf j /\ render (fun _ => true) j = inr t /\ parse_sdf t = inr p /\ s_obs (j_ses j) = [o] /\
  o_setup o = STEPPED 7 true [ss; c] /\ p_spec c = None /\ s_obs (j_ses p) = [b] /\
  match o_setup b with STEPPED _ _ [_; c'] => p_spec c' = p_spec ss /\ p_spec c' <> None | _ => False end.
Proof.
  set (ss := mkStep 5 6 5000 1000000000 0 true false (Some (repeat 7 512, repeat ((1, 0), (0, 1)) 256))). set (c := mkStep 5 7 5000 1000000000 0 true false None). set (o := plain 0 (STEPPED 7 true [ss; c])). exists (sample [o]).
  assert (W : Forall obs_wf [o]) by (apply one_wf; apply plain_wf; [lia|]; repeat constructor; vm_compute; congruence).
  destruct (sample_back [o] W) as (t & R & P); [vm_compute; reflexivity|]. exists t. eexists. exists o, ss. eexists. exists c. split; [apply sample_wf; auto|]. split; [exact R|]. split; [exact P|].
  split; [reflexivity|]. split; [reflexivity|]. split; [reflexivity|]. split; [reflexivity|]. split; [reflexivity|discriminate].
Qed.
(** If all front ends are to have one polarization on and the other left as it is, nothing is written. *)
Lemma C54_one_polarization_refuted_proof : exists j t p o b, proj_wf j /\ render (fun _ => true) j = inr t /\ parse_sdf t = inr p /\ s_obs (j_ses j) = [o] /\ s_obs (j_ses p) = [b] /\
  Forall (eq (1, -1)) (o_fee o) /\ Forall (eq (-1, -1)) (o_fee b).
Proof.
  set (o := with_fee (repeat (1, -1) 256) (plain 0 (solar false))). exists (sample [o]).
  assert (W : Forall obs_wf [o]) by (apply one_wf; apply fee_wf, plain_wf; [lia|]; cbn; auto).
  destruct (sample_back [o] W) as (t & R & P); [vm_compute; reflexivity|]. exists t. eexists. exists o. eexists. split; [apply sample_wf; auto|]. split; [exact R|]. split; [exact P|].
  split; [reflexivity|]. split; [reflexivity|]. split; apply (all_rep _ _ 256).
Qed.
(** The gain of a TBS observation is written, and not read. *)
Lemma C54_tbs_gain_refuted_proof : exists j t p o b, proj_wf j /\ render (fun _ => true) j = inr t /\ parse_sdf t = inr p /\ s_obs (j_ses j) = [o] /\ s_obs (j_ses p) = [b] /\
  o_gain o = 20 /\ o_gain b = -1.
Proof.
  set (o := with_gain 20 (plain 0 (TBS 1000000000 8))). exists (sample [o]).
  assert (W : Forall obs_wf [o]) by (apply one_wf; apply gain_wf, plain_wf; [lia|]; cbn; auto).
  destruct (sample_back [o] W) as (t & R & P); [vm_compute; reflexivity|]. exists t. eexists. exists o. eexists. split; [apply sample_wf; auto|]. split; [exact R|]. split; [exact P|].
  split; [reflexivity|]. split; [reflexivity|]. split; reflexivity.
Qed.
(** A missing title comes back as a text, remarks are cut. *)
Lemma C54_texts_refuted_proof : exists j t p o b, proj_wf j /\ render (fun _ => true) j = inr t /\ parse_sdf t = inr p /\ s_obs (j_ses j) = [o] /\ s_obs (j_ses p) = [b] /\
  o_name o = [] /\ o_name b = tx "None provided" /\ length (o_comments o) = 5000%nat /\ length (o_comments b) = 4090%nat.
Proof.
  set (o := with_texts [] (repeat 97 5000) (plain 0 (solar false))). exists (sample [o]).
  assert (W : Forall obs_wf [o]).
  { apply one_wf, texts_wf; [apply plain_wf; [lia|cbn; auto]|left; auto|]. right. split; [reflexivity|]. split; intro X; apply repeat_spec in X; discriminate. }
  destruct (sample_back [o] W) as (t & R & P); [vm_compute; reflexivity|]. exists t. eexists. exists o. eexists. split; [apply sample_wf; auto|]. split; [exact R|]. split; [exact P|].
  split; [reflexivity|]. split; [reflexivity|]. split; [reflexivity|]. split; [reflexivity|]. split; [apply repeat_length|]. cbn [o_comments back_remarks with_texts o]. reflexivity.
Qed.
(** A right ascension just below 24 h is valid and is written as 24.000000000, which cannot be read. *)
Lemma C54_right_ascension_refuted_proof : exists j t o ra, render (fun _ => true) j = inr t /\ parse_sdf t = inl ValueError /\ s_obs (j_ses j) = [o] /\
  o_setup o = TRK (RaDec ra 0) 1000000000 0 6 false /\ (0 <= ra < 24)%Q.
Proof.
  set (o := plain 0 (TRK (RaDec (23999999999600 # 1000000000000) 0) 1000000000 0 6 false)). exists (sample [o]). eexists. exists o. eexists. split; [vm_compute; reflexivity|]. split; [vm_compute; reflexivity|].
  split; [reflexivity|]. split; [reflexivity|]. vm_compute. intuition congruence.
Qed.
(** Lines that say nothing (blank, one word, keywords that end in '+') and unknown keywords make no difference. *)
Lemma C54_other_lines_proof : forall a l b, ~ In 10 l -> ~ In 13 l -> (lex l = Skip \/ exists k ids v, lex l = Item k ids v /\ keyword_of k = KOther) ->
  parse_sdf (a ++ 10 :: l ++ 10 :: b) = parse_sdf (a ++ 10 :: b).
Proof.
  intros a l b N R H. unfold parse_sdf. fold cr. rewrite !map_app. cbn [map]. rewrite map_app, (cr_id l R). cbn [map]. change (cr 10) with 10.
  assert (S : forall x y, split 10 (x ++ 10 :: y) = split 10 x ++ split 10 y).
  { induction x as [|c x IH]; intro y; [reflexivity|]. cbn [app split]. rewrite IH. destruct (c =? 10); [reflexivity|]. pose proof (split_nonempty 10 x). destruct (split 10 x); [contradiction|reflexivity]. }
  assert (G : forall x y st, run_lines (x ++ y) st = match run_lines x st with inl e => inl e | inr st' => run_lines y st' end).
  { induction x as [|c x IH]; intros y st; [reflexivity|]. cbn [app run_lines]. destruct (lex c); auto. destruct (apply _ _ _ st); auto. }
  rewrite !S. rewrite !G. destruct (run_lines (split 10 (map cr a)) st0) as [e|st]; [reflexivity|]. rewrite G.
  assert (L : split 10 l = [l]). { clear - N. induction l as [|c l IH]; [reflexivity|]. cbn [split]. destruct (Z.eqb_spec c 10) as [->|]; [exfalso; apply N; left; auto|]. rewrite IH; [reflexivity|]. intro. apply N. right. auto. }
  rewrite L. cbn [run_lines]. destruct H as [-> | (k & ids & v & -> & E)]; [reflexivity|]. rewrite E. reflexivity.
Qed.
Lemma C54_other_lines_example_proof : lex (tx "   ") = Skip /\ lex (tx "OBS_START+  UTC 2023/02/25 00:00:00.000") = Skip /\ lex (tx "SESSION_COLOR blue") = Item (tx "SESSION_COLOR") [-1; -1; -1; -1] (tx "blue") /\ keyword_of (tx "SESSION_COLOR") = KOther.
Proof. vm_compute. auto. Qed.
(** A line whose first word does not begin like a keyword, a comment for instance, is an AttributeError. *)
Lemma C54_comment_line_refuted_proof : forall rest, parse_sdf (tx "# a comment" ++ 10 :: rest) = inl AttributeError.
Proof. intro rest. unfold parse_sdf. rewrite map_app. cbn. reflexivity. Qed.
(** A flag that is 0 in the file is set. *)
Lemma C54_flag_refuted_proof : exists p, parse_sdf (tx "SESSION_LOG_SCH 0") = inr p /\ s_sch (j_ses p) = true.
Proof. eexists. split; vm_compute; reflexivity. Qed.
(** A declination out of range is a NameError, a right ascension a ValueError. *)
Lemma C54_out_of_range_refuted_proof : let nl := [10] in let head := tx "OBS_ID 1" ++ nl ++ tx "OBS_START_MJD 60000" ++ nl ++ tx "OBS_START_MPM 0" ++ nl ++ tx "OBS_DUR 10000" ++ nl ++ tx "OBS_MODE TRK_RADEC" ++ nl in
  parse_sdf (head ++ tx "OBS_RA 24.5" ++ nl ++ tx "OBS_DEC +45.0" ++ nl) = inl ValueError /\ parse_sdf (head ++ tx "OBS_RA 4.5" ++ nl ++ tx "OBS_DEC +95.0" ++ nl) = inl NameError.
Proof. vm_compute. auto. Qed.

(** A session that validate() accepts is valid: identifiers, tunings, filters and settings in range, observations and
    session within the capacity of a data recorder unit, and no two observations at the same time. *)
Lemma C55_validate_sound_proof : forall visible s, Forall obs_wf (s_obs s) -> (forall o n, In o (s_obs s) -> o_setup o = TBT n -> 0 <= n) -> session_ok visible s = inr true -> good_session visible s.
Proof.
  intros visible s W T H. assert (A : Forall (fun o => good_mode visible o) (map upd (s_obs s))).
  { apply session_facts in H. destruct H as [H _]. apply all_iff in H. revert H. apply Forall_impl. intros o O. apply obs_sound in O. tauto. }
  apply (session_iff visible s); auto. apply (good_durs visible); auto.
Qed.
(** PARTIAL (missing: observations with 1024 steps): a valid session is accepted. *)
Lemma C55_validate_complete_partial_proof : forall visible s, Forall obs_wf (s_obs s) -> (forall o n, In o (s_obs s) -> o_setup o = TBT n -> 0 <= n) ->
  (forall o f rd ss, In o (s_obs s) -> o_setup o = STEPPED f rd ss -> (length ss <= 1023)%nat) -> good_session visible s -> session_ok visible s = inr true.
Proof.
  intros visible s W T L G. pose proof (g_obs _ _ G) as O. apply session_iff; [|split; auto].
  - apply (good_durs visible); auto. revert O. apply Forall_impl. tauto.
  - rewrite Forall_forall in *. intros x X. specialize (O x X). apply obs_iff; auto. apply in_map_iff in X. destruct X as (o & <- & X). destruct (upd_fields o) as [-> _]. destruct (o_setup o) eqn:E; auto. eapply L; eauto.
Qed.
Lemma C55_validate_complete_partial_example_proof : let s := sample_ses [plain 20000 (solar true); plain 0 (TRK (RaDec 5 (-30)) 1000000000 0 6 false)] in
  Forall obs_wf (s_obs s) /\ good_session (fun _ => true) s.
Proof.
  cbv zeta. assert (W : Forall obs_wf (s_obs (sample_ses [plain 20000 (solar true); plain 0 (TRK (RaDec 5 (-30)) 1000000000 0 6 false)]))).
  { apply two_wf; apply plain_wf; try lia; cbn; auto; repeat split; vm_compute; congruence. }
  split; [exact W|]. apply C55_validate_sound_proof; [exact W| |vm_compute; reflexivity]. intros o n [<- | [<- | []]]; discriminate.
Qed.
(** 1024 steps, the documented maximum, are refused. *)
Lemma C55_steps_refuted_proof : forall visible a b m o f rd ss, o_setup o = STEPPED f rd ss -> length ss = 1024%nat -> obs_ok visible a b m o = inr false.
Proof.
  intros visible a b m o f rd ss E L. unfold obs_ok. rewrite E. destruct ss as [|p ss]; [discriminate|]. rewrite L. change (1 + Z.of_nat 1024 <=? MAX_STP_N) with false. rewrite !andb_false_r. reflexivity.
Qed.
(** An observation without steps is a ZeroDivisionError. *)
Lemma C55_no_steps_refuted_proof : forall visible a b m o f rd, o_setup o = STEPPED f rd [] -> obs_ok visible a b m o = inl ZeroDivisionError.
Proof. intros visible a b m o f rd E. unfold obs_ok. rewrite E. reflexivity. Qed.
(** A number of samples below zero is accepted, and then two observations at the same time are. *)
Lemma C55_overlap_refuted_proof : exists s o1 o2, Forall obs_wf (s_obs s) /\ s_obs s = [o1; o2] /\ session_ok (fun _ => true) s = inr true /\ o_setup o1 = TBT (-6729333) /\
  o_mjd o1 = o_mjd o2 /\ o_mpm o1 = o_mpm o2 /\ o_dur o2 = 10000.
Proof.
  set (o1 := with_dur 0 (plain 0 (TBT (-6729333)))). set (o2 := plain 0 (TBS 1000000000 8)). exists (sample_ses [o1; o2]), o1, o2.
  split; [|split; [reflexivity|split; [vm_compute; reflexivity|repeat split]]]. apply two_wf; [|apply plain_wf; cbn; auto; lia].
  destruct (plain_wf 0 (TBS 1000000000 8)) as [A B C D E F]; [lia|cbn; auto|]. split; auto. cbn. vm_compute. reflexivity.
Qed.
(** Three of the products that the spectrometer setting takes are refused by validate(). *)
Lemma C55_metatag_refuted_proof : forall m, In m [tx "{Stokes=CRCI}"; tx "{Stokes=XXCRCIYY}"; tx "{Stokes=I}"] -> set_metatag m = inr m /\ forall visible s, s_meta s = m -> session_ok visible s <> inr true.
Proof.
  intros m [<- | [<- | [<- | []]]]; (split; [vm_compute; reflexivity|]); intros visible s E H; apply session_facts in H; destruct H as (_ & _ & H & _); rewrite E in H; cbn in H; rewrite orb_true_r in H; rewrite !andb_true_iff in H; destruct H as [[_ H] _]; discriminate.
Qed.
(** What the spectrometer setting takes: nothing, or one of six products with or without either brace, which are
    added. *)
Lemma C55_metatag_accepts_proof : forall v m, set_metatag v = inr m <->
  (v = [] /\ m = []) \/
  (exists t, In t (map tx ["Stokes=XXYY"; "Stokes=CRCI"; "Stokes=XXCRCIYY"; "Stokes=I"; "Stokes=IV"; "Stokes=IQUV"]%string) /\ m = [123] ++ t ++ [125] /\
     (v = t \/ v = [123] ++ t \/ v = t ++ [125] \/ v = [123] ++ t ++ [125])).
Proof.
  intros v m. split.
  - intro H. destruct v as [|c r]; [left; cbn in H; inversion H; auto|right]. unfold set_metatag in H. cbv zeta in H.
    match type of H with (if ?e then _ else _) = _ => destruct e eqn:E; [|discriminate] end. apply inr_inj in H. rewrite H in E.
    apply existsb_exists in E. destruct E as (x & I & X). apply str_eqb_true in X. rewrite <- X in I. clear x X.
    assert (T : exists t, In t (map tx ["Stokes=XXYY"; "Stokes=CRCI"; "Stokes=XXCRCIYY"; "Stokes=I"; "Stokes=IV"; "Stokes=IQUV"]%string) /\ m = [123] ++ t ++ [125]).
    { destruct I as [I | [I | [I | [I | [I | [I | []]]]]]]; rewrite <- I;
        [exists (tx "Stokes=XXYY") | exists (tx "Stokes=CRCI") | exists (tx "Stokes=XXCRCIYY") | exists (tx "Stokes=I") | exists (tx "Stokes=IV") | exists (tx "Stokes=IQUV")];
        (split; [cbn [map]; cbn [In]; tauto|vm_compute; reflexivity]). }
    destruct T as (t & It & ->). exists t. split; [exact It|]. split; [reflexivity|]. clear I It.
    destruct (last _ 0 =? 125) in H.
    + destruct (Z.eqb_spec c 123); [right; right; right; exact H|]. right. right. left. cbn [app] in H. congruence.
    + change ([123] ++ t ++ [125]) with (([123] ++ t) ++ [125]) in H. apply app_inj_tail in H. destruct H as [H _].
      destruct (Z.eqb_spec c 123); [right; left; exact H|]. left. cbn [app] in H. congruence.
  - intros [[-> ->] | (t & I & -> & V)]; [reflexivity|].
    destruct I as [<- | [<- | [<- | [<- | [<- | [<- | []]]]]]]; destruct V as [-> | [-> | [-> | ->]]]; vm_compute; reflexivity.
Qed.
Lemma C55_metatag_accepts_example_proof : set_metatag (tx "Stokes=IV}") = inr (tx "{Stokes=IV}") /\ set_metatag (tx "Stokes=XY") = inl ValueError.
Proof. split; vm_compute; reflexivity. Qed.
(** The braces can be left out. *)
Lemma C55_metatag_braces_proof : forall m, In m [tx "Stokes=XXYY"; tx "Stokes=IV"; tx "Stokes=IQUV"] -> set_metatag m = inr (123 :: m ++ [125]) /\ existsb (str_eqb (123 :: m ++ [125])) metatags = true.
Proof. intros m [<- | [<- | [<- | []]]]; vm_compute; auto. Qed.
