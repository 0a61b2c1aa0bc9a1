(** Lemmas about session definition files: one observation, and all of them. *)
From Coq Require Import Ascii String.
From Coq Require Import List ZArith Bool Lia QArith Qround Qabs Lqa.
From Verif Require Import M_Str P_Str P_Bar M_Sdf S_Sdf P_Sdf P_SdfRun.
Import ListNotations.
Open Scope Z_scope.
Ltac Zify.zify_post_hook ::= Z.div_mod_to_equations.

(** *** Steps *)
Lemma steps_run : forall ss i h d rest j t us, match rev us with [] => True | u :: _ => u_id u < i end ->
  u_hdr (base i us) = h -> u_spec (base i us) = d -> Forall spec_lens ss ->
  exists us', run_items (flat_map step_lines (number i ss) ++ rest) (mkSt j t us) = run_items rest (mkSt j t (us ++ us')) /\
              Forall2 (fun u p => exists k, u = bt_of k p) us' (back_steps h d ss).
Proof.
  induction ss as [|p ss IH]; intros i h d rest j t us N H D S.
  - exists []. rewrite app_nil_r. split; [reflexivity|constructor].
  - inversion S; subst p ss; clear S. cbn [number flat_map]. rewrite <- app_assoc.
    rewrite (step_run i x h d) by (auto; destruct (rev us); auto; lia). cbn [back_steps map].
    set (q := mkStep _ _ _ _ _ _ _ _).
    destruct (IH (i + 1) (p_hdr q) (p_spec q) rest j t (us ++ [bt_of i q])) as [us' [A B]].
    + rewrite rev_app_distr. cbn. lia.
    + unfold base. rewrite rev_app_distr. reflexivity.
    + unfold base. rewrite rev_app_distr. reflexivity.
    + auto.
    + exists (bt_of i q :: us'). split.
      * rewrite A, <- app_assoc. reflexivity.
      * constructor; [eexists; reflexivity|exact B].
Qed.
Lemma make_steps_ok : forall rd us ps, Forall2 (fun u p => exists k, u = bt_of k p) us ps -> Forall (fun p => p_radec p = rd) ps -> Forall spec_lens ps ->
  Forall (fun p => 0 <= p_c1 p /\ p_c1 p < (if rd then 24 else 360) /\ (if rd then -90 else 0) <= p_c2 p /\ p_c2 p <= 90)%Q ps -> make_steps rd us = inr ps.
Proof.
  intros rd us ps H. induction H as [|u p us ps [k ->] H IH]; intros R S C; [reflexivity|].
  inversion R; subst. inversion S; subst. inversion C as [|? ? [C1 [C2 [C3 C4]]] C']; subst. cbn [make_steps]. unfold make_step. cbn [bt_of u_id u_c1 u_c2 u_dur u_f1 u_f2 u_hdr u_spec].
  replace (Qle_bool 0 (p_c1 p)) with true by (symmetry; apply Qle_bool_iff; auto).
  replace (Qle_bool (if p_radec p then 24%Q else 360%Q) (p_c1 p)) with false by (symmetry; apply not_true_is_false; rewrite Qle_bool_iff; intro X; apply (Qlt_not_le _ _ C2); auto).
  replace (Qle_bool (if p_radec p then (-90)%Q else 0%Q) (p_c2 p)) with true by (symmetry; apply Qle_bool_iff; auto).
  replace (Qle_bool (p_c2 p) 90) with true by (symmetry; apply Qle_bool_iff; auto). cbn [negb orb].
  rewrite IH by auto. replace (mkStep (p_c1 p) (p_c2 p) (p_dur p) (p_f1 p) (p_f2 p) (p_radec p) (p_hdr p) (p_spec p)) with p by (destruct p; auto).
  unfold spec_lens in H2. destruct (p_spec p) as [[dl gn]|]; [|reflexivity]. destruct H2 as [E1 E2]. rewrite E1, E2, !Nat.eqb_refl. reflexivity.
Qed.
Lemma back_steps_radec : forall rd ss h d, Forall (fun p => p_radec p = rd) ss -> Forall (fun p => p_radec p = rd) (back_steps h d ss).
Proof. induction ss as [|p ss IH]; intros h d H; cbn; auto. inversion H; subst. constructor; auto. Qed.
Definition lens (d : option (list Z * list gain4)) : Prop := match d with Some (d, g) => length d = (2 * NSTD)%nat /\ length g = NSTD | None => True end.
Lemma back_steps_lens : forall ss h d, Forall spec_lens ss -> lens d -> Forall spec_lens (back_steps h d ss).
Proof.
  induction ss as [|p ss IH]; intros h d H D; cbn; auto. inversion H; subst. constructor.
  - unfold spec_lens, lens in *. cbn [p_spec]. destruct (p_spec p); auto.
  - apply IH; auto. unfold spec_lens, lens in *. destruct (p_spec p); auto.
Qed.
Lemma back_steps_durs : forall ss h d, map p_dur (back_steps h d ss) = map p_dur ss.
Proof. induction ss as [|p ss IH]; intros; cbn; auto. f_equal. auto. Qed.

(** *** Coordinates *)
Lemma half_even_le : forall q n, (0 <= q)%Q -> (q <= inject_Z n)%Q -> half_even q <= n.
Proof. intros q n P H. destruct (half_even_bounds q n P H). auto. Qed.
Lemma pow_q : forall n, (0 <= inject_Z (10 ^ Z.of_nat n))%Q.
Proof. intro n. replace 0%Q with (inject_Z 0) by reflexivity. rewrite <- Zle_Qle. apply Z.pow_nonneg. lia. Qed.
Lemma decimals_nonneg : forall n q, (0 <= q)%Q -> (0 <= decimals n q)%Q.
Proof.
  intros n q H. unfold decimals. rewrite (proj2 (Qle_bool_iff 0 q) H). unfold Qle. cbn [Qnum Qden]. 
  assert (0 <= half_even (q * inject_Z (10 ^ Z.of_nat n))); [|lia]. apply half_even_nonneg.
  apply Qmult_le_0_compat; auto. replace 0%Q with (inject_Z 0) by reflexivity. rewrite <- Zle_Qle. apply Z.pow_nonneg. lia.
Qed.
Lemma pos_pow : forall n, Zpos (Z.to_pos (10 ^ Z.of_nat n)) = 10 ^ Z.of_nat n.
Proof. intro n. apply Z2Pos.id. apply Z.pow_pos_nonneg; lia. Qed.
Lemma decimals_le : forall n q b, 0 <= b -> (q <= inject_Z b)%Q -> (decimals n q <= inject_Z b)%Q.
Proof.
  intros n q b B H. assert (P : 0 < 10 ^ Z.of_nat n) by (apply Z.pow_pos_nonneg; lia). unfold decimals. destruct (Qle_bool 0 q) eqn:E.
  - unfold Qle. cbn [inject_Z Qnum Qden]. rewrite pos_pow, Z.mul_1_r. apply half_even_le.
    + apply Qmult_le_0_compat; [apply Qle_bool_iff; auto|apply pow_q].
    + rewrite inject_Z_mult. apply Qmult_le_compat_r; [auto|apply pow_q].
  - unfold Qle. cbn [Qnum Qden Qopp]. cbn [inject_Z Qnum Qden]. rewrite pos_pow, Z.mul_1_r. assert (0 <= half_even (- q * inject_Z (10 ^ Z.of_nat n))); [|nia]. apply half_even_nonneg.
    apply Qmult_le_0_compat; [|replace 0%Q with (inject_Z 0) by reflexivity; rewrite <- Zle_Qle; lia].
    apply not_true_iff_false in E. rewrite Qle_bool_iff in E. lra.
Qed.
Lemma decimals_ge : forall n q b, 0 <= b -> (inject_Z (- b) <= q)%Q -> (inject_Z (- b) <= decimals n q)%Q.
Proof.
  intros n q b B H. assert (P : 0 < 10 ^ Z.of_nat n) by (apply Z.pow_pos_nonneg; lia). destruct (Qle_bool 0 q) eqn:E.
  - apply Qle_trans with 0%Q; [replace 0%Q with (inject_Z 0) by reflexivity; rewrite <- Zle_Qle; lia|]. apply decimals_nonneg. apply Qle_bool_iff. auto.
  - unfold decimals. rewrite E. unfold Qle. cbn [Qnum Qden Qopp]. cbn [inject_Z Qnum Qden]. rewrite pos_pow, Z.mul_1_r. assert (half_even (- q * inject_Z (10 ^ Z.of_nat n)) <= b * 10 ^ Z.of_nat n); [|nia].
    apply not_true_iff_false in E. rewrite Qle_bool_iff in E. apply half_even_le.
    + apply Qmult_le_0_compat; [lra|apply pow_q].
    + rewrite inject_Z_mult. apply Qmult_le_compat_r; [rewrite inject_Z_opp in H; lra|apply pow_q].
Qed.
Lemma coord_back : forall rd c1 c2, coord_ok rd c1 c2 ->
  (0 <= decimals 9 c1 /\ decimals 9 c1 < (if rd then 24 else 360) /\ (if rd then -90 else 0) <= decimals 9 c2 /\ decimals 9 c2 <= 90)%Q.
Proof.
  intros rd c1 c2 [A [B [C D]]]. split; [apply decimals_nonneg; auto|]. split; [auto|]. split.
  - destruct rd; [apply (decimals_ge 9 c2 90); [lia|exact C]|apply decimals_nonneg; auto].
  - apply (decimals_le 9 c2 90); [lia|exact D].
Qed.
Lemma back_steps_coords : forall rd ss h d, Forall (fun p => p_radec p = rd) ss -> Forall (fun p => coord_ok (p_radec p) (p_c1 p) (p_c2 p)) ss ->
  Forall (fun p => 0 <= p_c1 p /\ p_c1 p < (if rd then 24 else 360) /\ (if rd then -90 else 0) <= p_c2 p /\ p_c2 p <= 90)%Q (back_steps h d ss).
Proof.
  induction ss as [|p ss IH]; intros h d R C; cbn; auto. inversion R; subst. inversion C; subst. constructor; auto. cbn [p_c1 p_c2]. apply coord_back. auto.
Qed.

(** *** Beam-dipole mode *)
Lemma words_step : forall n w r, Forall (fun x => is_space x = false) w -> w <> [] -> edge r -> words (S n) (w ++ 32 :: r) = w :: words n r.
Proof.
  intros n w r W N R. destruct w as [|x w]; [congruence|]. inversion W; subst. cbn [words app]. cbn [lstrip]. rewrite H1.
  change (x :: w ++ 32 :: r) with ((x :: w) ++ 32 :: r). rewrite word_app by (auto; reflexivity). rewrite (edge_lstrip r R). reflexivity.
Qed.
Lemma drop_char_no : forall c s, ~ In c s -> drop_char c s = s.
Proof.
  intros c s. unfold drop_char. induction s as [|x s IH]; intro H; cbn; auto. destruct (Z.eqb_spec x c); cbn; [exfalso; apply H; left; auto|]. f_equal. apply IH. intro. apply H. right. auto.
Qed.
Lemma ufix_word : forall n q, (0 < n)%nat -> (0 <= q)%Q -> Forall (fun x => is_space x = false) (ufix n q) /\ ufix n q <> [] /\ edge (ufix n q).
Proof.
  intros n q N H. destruct (ufix_chars n q N H) as (F & c & r & U & D). split; [|rewrite U; split; [discriminate|apply digit_not_space; auto]].
  eapply Forall_impl; [|exact F]. intros x X. apply space_not_fix. cbv beta in X. destruct X; auto.
Qed.
Lemma dec_word : forall i, Forall (fun x => is_space x = false) (dec i) /\ dec i <> [] /\ edge (dec i).
Proof.
  intro i. split; [|split; [apply dec_ne|apply dec_first]]. apply Forall_forall. intros c H. apply dec_chars in H. destruct H as [H | ->]; [apply digit_not_space; auto|reflexivity].
Qed.
Lemma ufix_float : forall n q, (0 < n)%nat -> (0 <= q)%Q -> parse_float (ufix n q) = Some (decimals n q).
Proof. intros n q N H. rewrite <- (fix_parse false n q N). unfold fix_. rewrite (proj2 (Qle_bool_iff 0 q) H). reflexivity. Qed.
Lemma edge_app : forall a b, edge a -> edge (a ++ b).
Proof. destruct a; cbn; tauto. Qed.
Definition round_bdm (b : bdm) : bdm := mkBdm (inject_Z (Qfloor (b_stand b))) (decimals 4 (b_beam b)) (decimals 4 (b_dipole b)) (b_pol b).
Lemma pol_facts : forall p, p = tx "X" \/ p = tx "Y" -> Forall (fun x => is_space x = false) p /\ p <> [] /\ edge p /\ ~ In 39 p /\ ~ In 10 p /\ ~ In 13 p /\ words 0 p = [p].
Proof.
  intros p [-> | ->]; (split; [repeat constructor|]); (split; [discriminate|]); (split; [reflexivity|]); (split; [|split; [|split; [|reflexivity]]]); cbn; intros [X | []]; discriminate.
Qed.
Lemma bdm_no : forall b c, bdm_ok b -> is_digit c = false -> c <> 45 -> c <> 46 -> c <> 32 -> ~ In c (b_pol b) -> ~ In c (bdm_text b).
Proof.
  intros b c [[A [B C]] P] D N1 N2 N3 Q H. unfold bdm_text in H. apply in_app_iff in H. destruct H as [H | [H | H]]; [apply dec_no in H; auto|lia|].
  apply in_app_iff in H. destruct H as [H | [H | H]]; [apply ufix_chars_no in H; auto; lia|lia|].
  apply in_app_iff in H. destruct H as [H | [H | H]]; [apply ufix_chars_no in H; auto; lia|lia|auto].
Qed.
Lemma bdm_parse : forall b, bdm_ok b -> parse_bdm (bdm_text b) = Some (round_bdm b).
Proof.
  intros b W. pose proof W as [[A [B C]] P]. destruct (pol_facts _ P) as (P1 & P2 & P3 & P4 & _ & _ & P7). unfold parse_bdm. rewrite drop_char_no by (apply bdm_no; auto; lia).
  destruct (ufix_word 4 _ ltac:(lia) B) as (U1 & U2 & U3). destruct (ufix_word 4 _ ltac:(lia) C) as (V1 & V2 & V3). destruct (dec_word (Qfloor (b_stand b))) as (D1 & D2 & D3).
  rewrite strip_id.
  - unfold bdm_text. rewrite words_step; auto; [|apply edge_app; auto]. rewrite words_step; auto; [|apply edge_app; auto]. rewrite words_step; auto. rewrite P7.
    rewrite parse_dec, !ufix_float by (auto; lia). reflexivity.
  - split.
    + unfold bdm_text. pose proof (edge_app (dec (Qfloor (b_stand b))) (32 :: ufix 4 (b_beam b) ++ 32 :: ufix 4 (b_dipole b) ++ 32 :: b_pol b) D3) as E. unfold edge in E. destruct (_ ++ _); tauto.
    + unfold bdm_text. rewrite !rev_app_distr. cbn [rev]. rewrite !rev_app_distr. cbn [rev]. rewrite !rev_app_distr. destruct P as [-> | ->]; cbn; reflexivity.
Qed.
Lemma bdm_clean : forall b, bdm_ok b -> clean (bdm_text b).
Proof.
  intros b W. pose proof W as [_ P]. destruct (pol_facts _ P) as (P1 & P2 & P3 & P4 & P5 & P6 & P7). split; [|split; apply bdm_no; auto; lia].
  destruct (dec_word (Qfloor (b_stand b))) as (D1 & D2 & D3). apply (edge_app _ _ D3).
Qed.

(** *** One observation *)
Definition keep_wf (m : keep) : Prop := length (k_fee m) = NSTD /\ length (k_flt m) = NSTD /\ length (k_at1 m) = NSTD /\ length (k_at2 m) = NSTD /\ length (k_at3 m) = NSTD.
(** What validate() and update() see to. *)
Record obs_good (o : obs) : Prop := {
  g_fee : (NSTD <= length (o_fee o))%nat;
  g_flt : (NSTD <= length (o_flt o))%nat;
  g_at1 : (NSTD <= length (o_at1 o))%nat;
  g_at2 : (NSTD <= length (o_at2 o))%nat;
  g_at3 : (NSTD <= length (o_at3 o))%nat;
  g_setup : match o_setup o with
            | STEPPED _ rd ss => ss <> [] /\ Forall (fun p => p_radec p = rd) ss /\ Forall spec_lens ss /\ o_dur o = sum (map p_dur ss)
            | _ => True
            end }.
Lemma over_length : forall old new, (length old <= length new)%nat -> length (over old new) = length old.
Proof. intros. unfold over. rewrite map_length, combine_length. lia. Qed.
Lemma over_fee_length : forall old new, (length old <= length new)%nat -> length (over_fee old new) = length old.
Proof. intros old new H. unfold over_fee. destruct new; auto. destruct (_ && _); auto. rewrite map_length, combine_length. lia. Qed.
Lemma remember_wf : forall m o, keep_wf m -> obs_good o -> keep_wf (remember m o).
Proof.
  intros m o (A & B & C & D & E) [F1 F2 F3 F4 F5 _]. unfold keep_wf, remember. cbn [k_fee k_flt k_at1 k_at2 k_at3]. rewrite !over_length, over_fee_length by lia. auto.
Qed.
Lemma flt_run : forall l rest j t us, (NSTD <= length l)%nat -> length (k_flt (t_keep t)) = NSTD ->
  run_items (setting_lines "OBS_ASP_FLT" l ++ rest) (mkSt j t us) = run_items rest (mkSt j (set_keep (keep_flt (over (k_flt (t_keep t)) l) (t_keep t)) t) us).
Proof.
  apply (setting_run "OBS_ASP_FLT" k_flt keep_flt); intros; try reflexivity; [|destruct x; reflexivity]. kw. cbn [apply]. unfold with_int. rewrite parse_dec. reflexivity.
Qed.
Lemma at1_run : forall l rest j t us, (NSTD <= length l)%nat -> length (k_at1 (t_keep t)) = NSTD ->
  run_items (setting_lines "OBS_ASP_AT1" l ++ rest) (mkSt j t us) = run_items rest (mkSt j (set_keep (keep_at1 (over (k_at1 (t_keep t)) l) (t_keep t)) t) us).
Proof.
  apply (setting_run "OBS_ASP_AT1" k_at1 keep_at1); intros; try reflexivity; [|destruct x; reflexivity]. kw. cbn [apply]. unfold with_int. rewrite parse_dec. reflexivity.
Qed.
Lemma at2_run : forall l rest j t us, (NSTD <= length l)%nat -> length (k_at2 (t_keep t)) = NSTD ->
  run_items (setting_lines "OBS_ASP_AT2" l ++ rest) (mkSt j t us) = run_items rest (mkSt j (set_keep (keep_at2 (over (k_at2 (t_keep t)) l) (t_keep t)) t) us).
Proof.
  apply (setting_run "OBS_ASP_AT2" k_at2 keep_at2); intros; try reflexivity; [|destruct x; reflexivity]. kw. cbn [apply]. unfold with_int. rewrite parse_dec. reflexivity.
Qed.
Lemma at3_run : forall l rest j t us, (NSTD <= length l)%nat -> length (k_at3 (t_keep t)) = NSTD ->
  run_items (setting_lines "OBS_ASP_AT3" l ++ rest) (mkSt j t us) = run_items rest (mkSt j (set_keep (keep_at3 (over (k_at3 (t_keep t)) l) (t_keep t)) t) us).
Proof.
  apply (setting_run "OBS_ASP_AT3" k_at3 keep_at3); intros; try reflexivity; [|destruct x; reflexivity]. kw. cbn [apply]. unfold with_int. rewrite parse_dec. reflexivity.
Qed.
(** obs_temp after the lines of the mode. *)
Definition mode_temp (s : setup) (t : temp) : temp :=
  match s with
  | TBT _ => t
  | TBS f1 f => set_filter f (set_f1 f1 t)
  | TRK k f1 f2 f h =>
      let t1 := match k with RaDec ra de => set_dec (decimals 9 de) (set_ra (decimals 9 ra) t) | _ => t end in
      set_filter f (set_f2 f2 (set_f1 f1 (if h then set_keep (keep_hdr true (t_keep t)) t1 else t1)))
  | STEPPED f rd ss => set_radec rd (set_filter f t)
  end.
Lemma mode_run : forall s rest j t,
  match s with STEPPED _ rd ss => ss <> [] /\ Forall (fun p => p_radec p = rd) ss /\ Forall spec_lens ss | _ => True end ->
  exists us, run_items (mode_lines s ++ rest) (mkSt j t []) = run_items rest (mkSt j (mode_temp s t) us) /\
             match s with STEPPED _ rd ss => Forall2 (fun u p => exists k, u = bt_of k p) us (back_steps false None ss) | _ => us = [] end.
Proof.
  intros s rest j t H. destruct s as [n|f1 f|k f1 f2 f h|f rd ss].
  - exists []. split; auto.
  - exists []. split; auto. cbn [mode_lines app]. item. item. reflexivity.
  - exists []. split; auto. cbn [mode_lines]. rewrite <- app_assoc. destruct k; cbn [app]; destruct h; cbn [beam_text].
    1,2: item; item. 1,2,3,4,5,6,7,8: item. 
    all: repeat match goal with |- context[str_eqb (tx ?a) (tx ?b)] => let v := eval vm_compute in (str_eqb (tx a) (tx b)) in change (str_eqb (tx a) (tx b)) with v end; cbv iota; item; item; item; reflexivity.
  - destruct H as (N & R & S). destruct ss as [|p ss]; [congruence|]. cbn [mode_lines]. rewrite <- app_assoc. cbn [app]. item. item. item.
    destruct (steps_run (p :: ss) 1 false None rest j (set_radec rd (set_filter f t)) [] I eq_refl eq_refl S) as [us [A B]]. exists us. split; [|exact B].
    cbn [mode_temp]. etransitivity; [|exact A]. f_equal. f_equal. inversion R; subst. destruct (p_radec p); reflexivity.
Qed.

(** obs_temp when the lines of the observation have been read. *)
Definition obs_temp (i : Z) (o : obs) (t : temp) : temp :=
  let m := remember (t_keep t) o in
  let t1 := mkTemp i (back_text (o_name o)) (back_text (o_target o)) (back_remarks (o_comments o)) (Some (o_mjd o)) (Some (o_mpm o)) (Some (o_dur o)) (mode_text (o_setup o))
                   (t_ra t) (t_dec t) (t_f1 t) (t_f2 t) (t_filter t) (t_radec t) (match o_setup o with TBT n => n | _ => t_samples t end) (t_keep t) in
  set_keep m (mode_temp (o_setup o) t1).
Lemma fold_none : forall s, or_none s = back_text s.
Proof. destruct s; reflexivity. Qed.
Ltac temps := cbn [set_id set_name set_target set_comments set_mjd set_mpm set_dur set_mode set_ra set_dec set_f1 set_f2 set_filter set_radec set_samples set_keep
  t_id t_name t_target t_comments t_mjd t_mpm t_dur t_mode t_ra t_dec t_f1 t_f2 t_filter t_radec t_samples t_keep
  keep_hdr keep_gain keep_bdm keep_fee keep_flt keep_at1 keep_at2 keep_at3 k_hdr k_gain k_bdm k_fee k_flt k_at1 k_at2 k_at3 mode_temp].
Lemma mode_temp_keep : forall s t, t_keep (mode_temp s t) = match s with TRK _ _ _ _ true => keep_hdr true (t_keep t) | _ => t_keep t end.
Proof. intros s t. destruct s as [n|f1 f|k f1 f2 f h|f rd ss]; try reflexivity. destruct k, h; reflexivity. Qed.
Definition head_temp (i : Z) (o : obs) (t : temp) : temp :=
  mkTemp i (back_text (o_name o)) (back_text (o_target o)) (back_remarks (o_comments o)) (Some (o_mjd o)) (Some (o_mpm o)) (Some (o_dur o)) (mode_text (o_setup o))
         (t_ra t) (t_dec t) (t_f1 t) (t_f2 t) (t_filter t) (t_radec t) (t_samples t) (t_keep t).
Lemma head_run : forall i o rest st j t, finish st = inr (mkSt j t []) ->
  run_items ([L "OBS_ID" [] (dec i); L "OBS_TITLE" [] (or_none (o_name o)); L "OBS_TARGET" [] (or_none (o_target o));
     L "OBS_REMPI" [] (or_none (firstn 4090 (o_comments o)));
     L "OBS_START_MJD" [] (dec (o_mjd o)); L "OBS_START_MPM" [] (dec (o_mpm o)); L "OBS_DUR" [] (dec (o_dur o));
     L "OBS_MODE" [] (mode_text (o_setup o))] ++ rest) st = run_items rest (mkSt j (head_temp i o t) []).
Proof.
  intros i o rest st j t F. cbn [app]. item. rewrite F. rewrite ?parse_dec. cbn [q_proj q_temp q_steps].
  do 7 item. cbn [q_proj q_temp q_steps]. rewrite !fold_none. reflexivity.
Qed.
Lemma obs_run : forall i o rest st j t, obs_wf o -> obs_good o -> keep_wf (t_keep t) -> finish st = inr (mkSt j t []) ->
  exists us, run_items (obs_lines (i, o) ++ rest) st = run_items rest (mkSt j (obs_temp i o t) us) /\
             match o_setup o with STEPPED _ rd ss => Forall2 (fun u p => exists k, u = bt_of k p) us (back_steps false None ss) | _ => us = [] end.
Proof.
  intros i o rest st j t W G K F. pose proof G as [F1 F2 F3 F4 F5 GS]. destruct K as (K1 & K2 & K3 & K4 & K5).
  unfold obs_lines. rewrite <- !app_assoc. rewrite (head_run i o _ st j t F).
  set (t1 := head_temp i o t).
  assert (B : forall rest, run_items (match o_bdm o with Some b => [L "OBS_BDM" [] (bdm_text b)] | None => [] end ++ rest) (mkSt j t1 []) =
                      run_items rest (mkSt j (set_keep (keep_bdm (match o_bdm o with Some b => Some (round_bdm b) | None => k_bdm (t_keep t) end) (t_keep t)) t1) [])).
  { intro r. pose proof (w_bdm o W) as WB. destruct (o_bdm o) as [b|].
    - cbn [app]. item. rewrite bdm_parse by auto. reflexivity.
    - cbn [app]. f_equal. f_equal. unfold t1. destruct t as [a1 a2 a3 a4 a5 a6 a7 a8 a9 a10 a11 a12 a13 a14 a15 kk]. destruct kk. reflexivity. }
  rewrite B. clear B. set (t2 := set_keep _ t1).
  match goal with |- exists us, run_items (mode_lines _ ++ ?r) _ = _ /\ _ => destruct (mode_run (o_setup o) r j t2) as [us [A S]] end.
  { destruct (o_setup o); auto. destruct GS as (X1 & X2 & X3 & X4). auto. }
  exists us. split; [|exact S]. rewrite A. clear A S.
  assert (KE : t_keep (mode_temp (o_setup o) t2) = keep_hdr (k_hdr (t_keep t) || match o_setup o with TRK _ _ _ _ h => h | _ => false end)
      (keep_bdm (match o_bdm o with Some b => Some (round_bdm b) | None => k_bdm (t_keep t) end) (t_keep t))).
  { rewrite mode_temp_keep. unfold t2, t1. temps. destruct (o_setup o) as [n|f1 f|k f1 f2 f []|f rd ss]; rewrite ?orb_false_r, ?orb_true_r; reflexivity. }
  set (t3 := mode_temp _ t2) in *.
  rewrite fee_run by (auto; rewrite KE; exact K1). rewrite flt_run by (auto; temps; rewrite KE; exact K2). rewrite at1_run by (auto; temps; rewrite KE; exact K3).
  rewrite at2_run by (auto; temps; rewrite KE; exact K4). rewrite at3_run by (auto; temps; rewrite KE; exact K5).
  set (k5 := mkKeep (k_hdr (t_keep t) || match o_setup o with TRK _ _ _ _ h => h | _ => false end) (k_gain (t_keep t))
                    (match o_bdm o with Some b => Some (round_bdm b) | None => k_bdm (t_keep t) end)
                    (over_fee (k_fee (t_keep t)) (o_fee o)) (over (k_flt (t_keep t)) (o_flt o)) (over (k_at1 (t_keep t)) (o_at1 o)) (over (k_at2 (t_keep t)) (o_at2 o)) (over (k_at3 (t_keep t)) (o_at3 o))).
  assert (E : forall rest, run_items (match o_setup o with TBT n => [L "OBS_TBT_SAMPLES" [] (dec n)] | _ => if o_gain o =? -1 then [] else [L "OBS_DRX_GAIN" [] (dec (o_gain o))] end ++ rest)
                 (mkSt j (set_keep k5 t3) us) =
               run_items rest (mkSt j (set_keep (remember (t_keep t) o) (match o_setup o with TBT n => set_samples n t3 | _ => t3 end)) us)).
  { intro r. assert (GA : forall x, run_items ((if o_gain o =? -1 then [] else [L "OBS_DRX_GAIN" [] (dec (o_gain o))]) ++ r) (mkSt j (set_keep k5 x) us) =
                run_items r (mkSt j (set_keep (keep_gain (if o_gain o =? -1 then k_gain k5 else o_gain o) k5) x) us)).
    { intro x. destruct (o_gain o =? -1); cbn [app]; [reflexivity|]. item. reflexivity. }
    unfold remember. destruct (o_setup o) as [n|f1 f|k f1 f2 f h|f rd ss].
    - cbn [app]. item. reflexivity.
    - rewrite GA. reflexivity.
    - rewrite GA. reflexivity.
    - rewrite GA. reflexivity. }
  etransitivity; [|etransitivity; [exact (E rest)|]].
  - f_equal. f_equal. unfold k5. clearbody t3. temps. rewrite KE. reflexivity.
  - f_equal. f_equal. unfold obs_temp, t3, t2, t1, head_temp. generalize (remember (t_keep t) o). intro m. destruct (o_setup o) as [n|f1 f|k f1 f2 f h|f rd ss]; try reflexivity. destruct k, h; reflexivity.
Qed.

Lemma create_back : forall i o t us, obs_wf o -> obs_good o ->
  match o_setup o with STEPPED _ rd ss => Forall2 (fun u p => exists k, u = bt_of k p) us (back_steps false None ss) | _ => us = [] end ->
  create (obs_temp i o t) us = inr (back_obs (remember (t_keep t) o) o).
Proof.
  intros i o t us W G U. pose proof (w_mpm o W) as M. pose proof (w_setup o W) as S. pose proof (g_setup o G) as GS.
  unfold create, obs_temp. set (m := remember (t_keep t) o). unfold norm_start, back_obs.
  destruct (o_setup o) as [n|f1 f|k f1 f2 f h|f rd ss].
  - temps. rewrite Z.div_small, Z.mod_small, Z.add_0_r by lia. rewrite S. reflexivity.
  - temps. rewrite Z.div_small, Z.mod_small, Z.add_0_r by lia. reflexivity.
  - destruct k as [ra de| | |], h; temps; rewrite Z.div_small, Z.mod_small, Z.add_0_r by lia; try reflexivity.
    all: destruct (coord_back _ _ _ S) as (C1 & C2 & C3 & C4); cbn [mode_text];
      change (mode_of (tx "TRK_RADEC")) with MRadec; cbv iota beta;
      rewrite (proj2 (Qle_bool_iff 0 _) C1), (proj2 (Qle_bool_iff (-90) _) C3), (proj2 (Qle_bool_iff _ 90) C4);
      replace (Qle_bool 24 (decimals 9 ra)) with false by (symmetry; apply not_true_is_false; rewrite Qle_bool_iff; intro X; apply (Qlt_not_le _ _ C2); auto); reflexivity.
  - destruct GS as (N & R & L & D). temps. rewrite Z.div_small, Z.mod_small, Z.add_0_r by lia. cbn [mode_text]. change (mode_of (tx "STEPPED")) with MStepped. cbv iota beta.
    rewrite (make_steps_ok rd us _ U); [|apply back_steps_radec; auto|apply back_steps_lens; cbn; auto|apply back_steps_coords; auto].
    unfold upd. cbn [o_setup o_name o_target o_comments o_mjd o_mpm o_gain o_bdm o_fee o_flt o_at1 o_at2 o_at3 back_setup]. rewrite back_steps_durs, <- D. reflexivity.
Qed.
Lemma obs_temp_keep : forall i o t, t_keep (obs_temp i o t) = remember (t_keep t) o.
Proof. reflexivity. Qed.
Lemma obs_temp_id : forall i o t, t_id (obs_temp i o t) = i.
Proof. intros i o t. unfold obs_temp. destruct (o_setup o) as [n|f1 f|k f1 f2 f h|f rd ss]; try reflexivity. destruct k, h; reflexivity. Qed.

(** *** All the observations *)
Definition add_all (l : list obs) (j : project) : project := with_ses j (with_obs (j_ses j) (s_obs (j_ses j) ++ l)).
Lemma obs_all_run : forall l i st j t, 0 < i -> Forall obs_wf l -> Forall obs_good l -> keep_wf (t_keep t) -> finish st = inr (mkSt j t []) ->
  exists st' t', run_items (flat_map obs_lines (number i l)) st = inr st' /\ finish st' = inr (mkSt (add_all (back_all (t_keep t) l) j) t' []).
Proof.
  induction l as [|o l IH]; intros i st j t I W G K F.
  - exists st, t. split; [reflexivity|]. rewrite F. unfold add_all. cbn [back_all]. rewrite app_nil_r. destruct j as [? ? ? ? ? s]; destruct s. reflexivity.
  - inversion W; subst. inversion G; subst. cbn [number flat_map].
    destruct (obs_run i o (flat_map obs_lines (number (i + 1) l)) st j t) as [us [A U]]; auto. rewrite A.
    destruct (IH (i + 1) (mkSt j (obs_temp i o t) us) (add_all [back_obs (remember (t_keep t) o) o] j) (obs_temp i o t)) as (st' & t' & B & C); auto; try lia.
    + rewrite obs_temp_keep. apply remember_wf; auto.
    + unfold finish. cbn [q_temp q_steps q_proj]. rewrite obs_temp_id. destruct (Z.eqb_spec i 0); [lia|]. rewrite create_back by auto. reflexivity.
    + exists st', t'. split; [exact B|]. rewrite C. rewrite obs_temp_keep. cbn [back_all]. f_equal. f_equal. unfold add_all. cbn [j_ses with_ses with_obs s_obs]. rewrite <- app_assoc. reflexivity.
Qed.
