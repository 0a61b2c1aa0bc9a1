(** Lemmas for C104: stored structures, observation files. *)
From Coq Require Import String.
From Coq Require Import List ZArith Bool Lia.
From Verif Require Import M_CStruct S_CStruct P_Str P_CStruct P_CStructL M_Meta S_Meta S_Ndp P_Ndp.
Import ListNotations.
Open Scope Z_scope.

(** ** Stored structures *)
Fixpoint nodupb (l : list str) : bool := match l with [] => true | x :: r => negb (existsb (str_eqb x) r) && nodupb r end.
Lemma nodupb_ok : forall l, nodupb l = true -> NoDup l.
Proof.
  induction l as [|x l IH]; intro H; [constructor|]. cbn in H. apply andb_true_iff in H. destruct H as [H1 H2]. constructor; auto.
  intro I. apply negb_true_iff in H1. assert (K : existsb (str_eqb x) l = true) by (apply existsb_exists; exists x; split; [auto|apply str_eqb_refl]). congruence.
Qed.
Section ST.
  Variables (F : list decl) (fs : list field).
  Hypothesis E : fs = map (field_of false) F.
  Hypothesis ND : nodupb (map d_name F) = true.
  Lemma st_image : forall v, map (fun p : decl * list Z => field_of false (fst p)) (map (fun d => (d, v (d_name d))) F) = fs.
  Proof. intro v. rewrite map_map. cbn [fst]. now rewrite E. Qed.
  Lemma st_size : forall v bs, stored F v bs -> zlen bs = sizeof fs.
  Proof. intros v bs H. rewrite <- (st_image v). symmetry. eapply image_size; eauto. Qed.
  Lemma st_read : forall v bs rest mem, stored F v bs -> zlen mem = sizeof fs -> readinto mem (bs ++ rest) = (bs, rest).
  Proof. intros v bs rest mem H L. apply readinto_full. now rewrite L, (st_size v bs H). Qed.
  Lemma st_fresh : forall v bs, stored F v bs -> zlen (fresh fs) = sizeof fs.
  Proof. intros v bs H. apply fresh_len. rewrite <- (st_size v bs H). apply zlen_nonneg. Qed.
  Lemma st_al : forall v bs n, stored F v bs -> existsb (str_eqb (cs n)) (map d_name F) = true -> al fs bs n = v (cs n).
  Proof.
    intros v bs n H IN. apply existsb_exists in IN. destruct IN as (x & IN & EQ). destruct (str_eqb_spec (cs n) x) as [<-|]; [|discriminate].
    apply in_map_iff in IN. destruct IN as (d & Ed & IN). unfold al. rewrite <- (st_image v), <- Ed.
    eapply image_attr; eauto.
    - rewrite map_map. cbn [fst]. now apply nodupb_ok.
    - apply in_map_iff. exists d. auto.
  Qed.
  Lemma st_a1 : forall v bs n, stored F v bs -> existsb (str_eqb (cs n)) (map d_name F) = true -> a1 fs bs n = scalar v n.
  Proof. intros v bs n H IN. unfold a1, scalar. now rewrite (st_al v). Qed.
  Lemma st_ac : forall v bs n, stored F v bs -> existsb (str_eqb (cs n)) (map d_name F) = true -> ac fs bs n = chars (v (cs n)).
  Proof. intros v bs n H IN. unfold ac. now rewrite (st_al v). Qed.
  Lemma st_bytes : forall v bs, stored F v bs -> bytes_ok bs.
  Proof. intros v bs H. eapply image_bytes; eauto. Qed.
  Lemma st_count : forall v bs d, stored F v bs -> In d F -> zlen (v (d_name d)) = d_count d.
  Proof.
    intros v bs d (b & pad & _ & B & _) IN. apply body_counts in B. rewrite Forall_forall in B.
    specialize (B (d, v (d_name d))). cbn in B. apply B. apply in_map_iff. eauto.
  Qed.
  Lemma st_am : forall v bs n dims, stored F v bs -> In (D n Short dims) F \/ In (D n Int dims) F -> dims <> [] -> Forall (fun x => 1 <= x) dims ->
    exists t, am fs bs n = Ok t /\ shaped dims t /\ forall idx, in_shape dims idx -> get idx t = nth_error (v (cs n)) (Z.to_nat (row_major dims idx)).
  Proof.
    intros v bs n dims H IN NE POS.
    assert (IN' : exists ty, In (D n ty dims) F) by (destruct IN; eauto). clear IN. destruct IN' as (ty & IN).
    assert (DM : dims_of fs (cs n) = dims).
    { rewrite E. change (cs n) with (d_name (D n ty dims)). now rewrite (dims_of_field false F) by (auto; now apply nodupb_ok). }
    assert (EX : existsb (str_eqb (cs n)) (map d_name F) = true).
    { apply existsb_exists. exists (cs n). split; [|apply str_eqb_refl]. apply in_map_iff. eexists; split; [|exact IN]. reflexivity. }
    unfold am. rewrite DM, (st_al v) by auto. apply flat_ok; auto.
    pose proof (st_count v bs _ H IN) as C. cbn in C. rewrite C. reflexivity.
  Qed.
End ST.

Lemma ssf_eq : ssf = map (field_of false) ses_fields. Proof. vm_compute. reflexivity. Qed.
Lemma osf_eq : osf = map (field_of false) obs_fields. Proof. vm_compute. reflexivity. Qed.
Lemma osfs_eq : osfs = map (field_of false) step_fields. Proof. vm_compute. reflexivity. Qed.
Lemma beamf_eq : beamf = map (field_of false) beam_fields. Proof. vm_compute. reflexivity. Qed.
Lemma osf2_eq : osf2 = map (field_of false) tail_fields. Proof. vm_compute. reflexivity. Qed.
Lemma actionf_eq : actionf = map (field_of false) action_fields. Proof. vm_compute. reflexivity. Qed.
Lemma subsys_eq : subsys = map (field_of false) status_fields. Proof. vm_compute. reflexivity. Qed.
Lemma subsubsys_eq : subsubsys = map (field_of false) parts_fields. Proof. vm_compute. reflexivity. Qed.
Lemma antsf_eq : antsf = map (field_of false) ants_fields. Proof. vm_compute. reflexivity. Qed.
Lemma settings_eq : settings = map (field_of false) settings_fields. Proof. vm_compute. reflexivity. Qed.
Lemma marker_eq : marker = [mkField (cs "block") (CInt 4 false) []]. Proof. vm_compute. reflexivity. Qed.
Lemma ses_nd : nodupb (map d_name ses_fields) = true. Proof. vm_compute. reflexivity. Qed.
Lemma obs_nd : nodupb (map d_name obs_fields) = true. Proof. vm_compute. reflexivity. Qed.
Lemma step_nd : nodupb (map d_name step_fields) = true. Proof. vm_compute. reflexivity. Qed.
Lemma beam_nd : nodupb (map d_name beam_fields) = true. Proof. vm_compute. reflexivity. Qed.
Lemma tail_nd : nodupb (map d_name tail_fields) = true. Proof. vm_compute. reflexivity. Qed.
Lemma action_nd : nodupb (map d_name action_fields) = true. Proof. vm_compute. reflexivity. Qed.
Lemma status_nd : nodupb (map d_name status_fields) = true. Proof. vm_compute. reflexivity. Qed.
Lemma parts_nd : nodupb (map d_name parts_fields) = true. Proof. vm_compute. reflexivity. Qed.
Lemma ants_nd : nodupb (map d_name ants_fields) = true. Proof. vm_compute. reflexivity. Qed.
Lemma settings_nd : nodupb (map d_name settings_fields) = true. Proof. vm_compute. reflexivity. Qed.
Lemma osf2_size : sizeof osf2 = 3084. Proof. vm_compute. reflexivity. Qed.
Global Opaque ssf osf osfs beamf osf2 actionf subsys subsubsys antsf settings.

(** Characters *)
Lemma chars_text : forall t l, text_of t l -> chars l = t.
Proof.
  intros t l [NZ [->|(junk & ->)]].
  - induction NZ as [|c t Hc _ IH]; [reflexivity|]. cbn. destruct (Z.eqb_spec c 0); [contradiction|]. now rewrite IH.
  - induction NZ as [|c t Hc _ IH]; [reflexivity|]. cbn. destruct (Z.eqb_spec c 0); [contradiction|]. now rewrite IH.
Qed.
Lemma chars_is : forall l, text_of (chars l) l.
Proof.
  induction l as [|c l [NZ IH]]; cbn.
  - split; [constructor|now left].
  - destruct (Z.eqb_spec c 0) as [->|N].
    + split; [constructor|]. right. exists l. reflexivity.
    + split; [constructor; auto|]. destruct IH as [IH|(j & IH)]; [left; now rewrite <- IH|]. right. exists j. cbn. now rewrite <- IH.
Qed.
Lemma bspace_iff : forall c, bspace c = true <-> blank_byte c.
Proof. intro c. unfold bspace, blank_byte. rewrite orb_true_iff, andb_true_iff, !Z.leb_le, Z.eqb_eq. tauto. Qed.
Lemma blstrip_app : forall a s, Forall blank_byte a -> blstrip (a ++ s) = blstrip s.
Proof. induction a as [|c a IH]; intros s H; [reflexivity|]. inversion H; subst. cbn. destruct (bspace c) eqn:EB; [auto|]. apply bspace_iff in H2. congruence. Qed.
Lemma blstrip_head : forall s, (forall c r, s = c :: r -> ~ blank_byte c) -> blstrip s = s.
Proof. intros [|c s] H; [reflexivity|]. cbn. destruct (bspace c) eqn:EB; [|reflexivity]. exfalso. apply (H c s eq_refl). now apply bspace_iff. Qed.
Lemma bstrip_trims : forall t u, trims_to t u -> bstrip t = u.
Proof.
  intros t u (a & b & -> & A & B & H1 & H2). unfold bstrip. rewrite blstrip_app by auto.
  destruct u as [|c u].
  - rewrite app_nil_l. replace (blstrip b) with (@nil Z); [reflexivity|]. rewrite <- (app_nil_r b). now rewrite blstrip_app.
  - rewrite (blstrip_head ((c :: u) ++ b)).
    + rewrite rev_app_distr, blstrip_app.
      * rewrite blstrip_head; [apply rev_involutive|]. intros x r EQ. apply (H2 x (rev r)).
        rewrite <- (rev_involutive (c :: u)), EQ. reflexivity.
      * apply Forall_forall. intros x Hx. rewrite <- in_rev in Hx. rewrite Forall_forall in B. auto.
    + cbn [app]. intros x r EQ. inversion EQ; subst. now apply (H1 x u).
Qed.

(** ** The marker and the end of the file *)
Lemma marker_block : forall mem, a1 marker mem "block" = le_val (ztake 4 (zdrop 0 mem)).
Proof. intro mem. rewrite marker_eq. reflexivity. Qed.
Lemma marker_fresh : fresh marker = [0; 0; 0; 0]. Proof. rewrite marker_eq. reflexivity. Qed.
Lemma marker_good : forall rest, readinto (fresh marker) (le 4 4294967294 ++ rest) = ([254; 255; 255; 255], rest).
Proof. intro rest. apply readinto_full. rewrite marker_fresh. reflexivity. Qed.
Lemma marker_bad : forall p q, p ++ q = le 4 4294967294 -> q <> [] ->
  let '(mk, _) := readinto (fresh marker) p in negb (a1 marker mk "block" =? 2 ^ 32 - 2) = true.
Proof.
  intros p q E NE. rewrite marker_fresh. cbn in E.
  destruct p as [|a [|b [|c [|d p]]]]; cbn in E; inversion E; subst; try (rewrite marker_eq; vm_compute; reflexivity).
  apply app_eq_nil in H4. destruct H4 as [-> ->]. now contradiction NE.
Qed.
Lemma marker_none : let '(mk, _) := readinto (fresh marker) [] in negb (a1 marker mk "block" =? 2 ^ 32 - 2) = true.
Proof. apply (marker_bad [] (le 4 4294967294)); [reflexivity|discriminate]. Qed.
Lemma tail_alignment : forall mem, a1 osf2 mem "alignment" = le_val (ztake 4 (zdrop 3080 mem)).
Proof. intro mem. rewrite osf2_eq. reflexivity. Qed.
Lemma znth_zeros : forall fs i, znth 0 i (fresh fs) = 0.
Proof. intros fs i. unfold fresh, znth. try (destruct (i <? 0); [reflexivity|]). generalize (Z.to_nat (sizeof fs)) as n. generalize (Z.to_nat i) as k. intros k n. revert k. induction n; intros [|k]; cbn; auto. Qed.
Lemma tail_short : forall p, bytes_ok p -> zlen p < 3084 ->
  let '(f, _) := readinto (fresh osf2) p in negb (a1 osf2 f "alignment" =? 2 ^ 32 - 1) = true.
Proof.
  intros p OK L. assert (FL : zlen (fresh osf2) = 3084) by (rewrite fresh_len; rewrite osf2_size; lia).
  rewrite readinto_short by lia. rewrite tail_alignment. apply negb_true_iff. apply Z.eqb_neq.
  set (mem := p ++ zdrop (zlen p) (fresh osf2)).
  assert (ML : zlen mem = 3084) by (subst mem; rewrite zlen_app, zlen_zdrop, FL by (apply zlen_nonneg); pose proof (zlen_nonneg p); lia).
  assert (MO : bytes_ok mem).
  { subst mem. apply bytes_ok_app. split; [auto|]. apply bytes_ok_zdrop. unfold fresh. apply Forall_forall. intros x Hx. apply repeat_spec in Hx. subst. unfold is_byte. lia. }
  assert (M0 : znth 0 3083 mem = 0).
  { subst mem. rewrite znth_app_r by lia. rewrite znth_zdrop by (pose proof (zlen_nonneg p); lia). apply znth_zeros. }
  assert (T : zlen (ztake 4 (zdrop 3080 mem)) = 4) by (rewrite zlen_ztake, zlen_zdrop by lia; lia).
  assert (TO : bytes_ok (ztake 4 (zdrop 3080 mem))) by (apply bytes_ok_ztake, bytes_ok_zdrop; auto).
  assert (T3 : znth 0 3 (ztake 4 (zdrop 3080 mem)) = 0) by (rewrite znth_ztake, znth_zdrop by lia; exact M0).
  remember (ztake 4 (zdrop 3080 mem)) as w eqn:Ew. clear Ew MO M0 ML. clearbody mem. 
  destruct w as [|a [|b [|c [|d [|e w]]]]]; unfold zlen in T; cbn in T; try lia. unfold znth in T3. change (d = 0) in T3. subst d.
  unfold bytes_ok in TO. inversion TO as [|? ? A TO1]; subst. inversion TO1 as [|? ? B TO2]; subst. inversion TO2 as [|? ? C TO3]; subst.
  unfold is_byte in *. cbn [le_val]. change (2 ^ 32 - 1) with 4294967295. lia.
Qed.

(** ** The steps *)
Lemma am_beam_total : forall mem, exists g, am beamf mem "OBS_BEAM_GAIN" = Ok g.
Proof.
  intro mem. unfold am. set (v := al beamf mem "OBS_BEAM_GAIN").
  assert (D1 : dims_of beamf (cs "OBS_BEAM_GAIN") = [256; 2; 2]) by (rewrite beamf_eq; reflexivity).
  assert (D2 : zlen v = 1024).
  { subst v. rewrite beamf_eq. unfold al, attr. cbn [map beam_fields attr_at offsets].
    replace (str_eqb (fname (field_of false (D "OBS_BEAM_DELAY" UShort [512]))) (cs "OBS_BEAM_GAIN")) with false by (vm_compute; reflexivity).
    replace (str_eqb (fname (field_of false (D "OBS_BEAM_GAIN" Short [256; 2; 2]))) (cs "OBS_BEAM_GAIN")) with true by (vm_compute; reflexivity).
    unfold elements. rewrite zlen_map. unfold count. cbn [field_of fdims D]. change (fold_left Z.mul [256; 2; 2] 1) with 1024.
    assert (L : forall n lo, length (zseq lo n) = n) by (induction n; intro lo; cbn; auto). unfold zlen. rewrite L. reflexivity. }
  rewrite D1. destruct (flat_ok v [256; 2; 2]) as (t & T & _); [discriminate|repeat constructor; lia|now rewrite D2|]. eauto.
Qed.

Lemma steps_ok : forall steps sb, Forall2 step_bytes steps sb -> forall mem bm tail,
  zlen mem = sizeof osfs -> zlen bm = sizeof beamf ->
  exists l, read_steps (length steps) mem bm (concat sb ++ tail) = Ok (l, tail) /\ Forall2 step_is steps l.
Proof.
  intros steps sb H. induction H as [|s b steps sb H1 H2 IH]; intros mem bm tail LM LB.
  - exists []. split; [reflexivity|constructor].
  - destruct H1 as (b1 & b2 & -> & S1 & S3 & SN). cbn [length concat].
    rewrite <- !app_assoc. cbn [read_steps]. rewrite (st_read _ _ osfs_eq _ _ _ _ S1) by auto.
    assert (A : forall n, existsb (str_eqb (cs n)) (map d_name step_fields) = true -> a1 osfs b1 n = scalar (sp_step s) n)
      by (intros n Hn; now apply (st_a1 _ _ osfs_eq step_nd)).
    rewrite !A by reflexivity.
    destruct (Z.eq_dec (scalar (sp_step s) "OBS_STP_B") 3) as [B3|NB].
    + specialize (S3 B3). replace (scalar (sp_step s) "OBS_STP_B" =? 3) with true by (symmetry; apply Z.eqb_eq; auto).
      rewrite (st_read _ _ beamf_eq _ _ _ _ S3) by auto.
      destruct (st_am _ _ beamf_eq beam_nd _ _ "OBS_BEAM_GAIN" [256; 2; 2] S3) as (g & G1 & G2 & G3);
        [left; right; left; reflexivity|discriminate|repeat constructor; lia|]. rewrite G1. cbn [bind].
      rewrite (st_al _ _ beamf_eq beam_nd _ _ "OBS_BEAM_DELAY" S3) by reflexivity.
      rewrite marker_good. replace (negb (a1 marker [254; 255; 255; 255] "block" =? 2 ^ 32 - 2)) with false by (rewrite marker_eq; vm_compute; reflexivity).
      destruct (IH b1 b2 tail (st_size _ _ osfs_eq _ _ S1) (st_size _ _ beamf_eq _ _ S3)) as (l & R & F). rewrite R. cbn [bind].
      eexists. split; [reflexivity|]. constructor; [|exact F].
      unfold step_is. cbn [s_c1 s_c2 s_t s_freq1 s_freq2 s_b s_delay s_gain]. do 6 (split; [reflexivity|]). split; [|intro; contradiction].
      intros _. split; [reflexivity|]. split; [exact G2|]. intros i j k Hi Hj Hk. rewrite G3 by (cbn; lia).
      f_equal. f_equal. cbn [row_major size fold_right]. lia.
    + rewrite (SN NB). cbn [app]. destruct (Z.eqb_spec (scalar (sp_step s) "OBS_STP_B") 3) as [E|_]; [contradiction|]. cbn [bind].
      rewrite marker_good. replace (negb (a1 marker [254; 255; 255; 255] "block" =? 2 ^ 32 - 2)) with false by (rewrite marker_eq; vm_compute; reflexivity).
      destruct (IH b1 bm tail (st_size _ _ osfs_eq _ _ S1) LB) as (l & R & F). rewrite R. cbn [bind].
      eexists. split; [reflexivity|]. constructor; [|exact F].
      unfold step_is. cbn [s_c1 s_c2 s_t s_freq1 s_freq2 s_b s_delay s_gain]. do 6 (split; [reflexivity|]). split; [intro; contradiction|]. auto.
Qed.

(** ** A file that ends early *)
Lemma prefix_cases : forall (a b p q : list Z), a ++ b = p ++ q ->
  (exists p', p = a ++ p' /\ b = p' ++ q) \/ (zlen p < zlen a /\ exists a', a = p ++ a' /\ a' <> []).
Proof.
  induction a as [|x a IH]; intros b p q E.
  - left. exists p. auto.
  - destruct p as [|y p].
    + right. split; [rewrite zlen_cons, zlen_nil; pose proof (zlen_nonneg a); lia|]. exists (x :: a). split; [reflexivity|discriminate].
    + cbn in E. inversion E; subst. destruct (IH b p q H1) as [(p' & -> & ->)|(L & a' & -> & NE)].
      * left. exists p'. auto.
      * right. split; [rewrite !zlen_cons; lia|]. exists a'. auto.
Qed.
Lemma steps_none : forall k mem bm, read_steps (S k) mem bm [] = Raise OSError.
Proof.
  intros k mem bm. cbn [read_steps]. rewrite readinto_short by (rewrite zlen_nil; apply zlen_nonneg).
  pose proof marker_none as M. destruct (readinto (fresh marker) []) as [mk r] eqn:ER.
  destruct (a1 osfs ([] ++ zdrop (zlen (@nil Z)) mem) "OBS_STP_B" =? 3).
  - rewrite readinto_short by (rewrite zlen_nil; apply zlen_nonneg).
    destruct (am_beam_total ([] ++ zdrop (zlen (@nil Z)) bm)) as (g & ->). cbn [bind]. rewrite ER, M. reflexivity.
  - cbn [bind]. rewrite ER, M. reflexivity.
Qed.

Lemma steps_prefix : forall steps sb, Forall2 step_bytes steps sb -> forall mem bm fb p q,
  zlen mem = sizeof osfs -> zlen bm = sizeof beamf -> concat sb ++ fb = p ++ q -> q <> [] ->
  read_steps (length steps) mem bm p = Raise OSError \/
  exists l p', read_steps (length steps) mem bm p = Ok (l, p') /\ fb = p' ++ q.
Proof.
  intros steps sb H. induction H as [|s b steps sb H1 H2 IH]; intros mem bm fb p q LM LB E NE.
  - right. cbn in E. exists [], p. auto.
  - destruct H1 as (b1 & b2 & -> & S1 & S3 & SN). cbn [length concat] in *. rewrite <- !app_assoc in E.
    pose proof (st_size _ _ osfs_eq _ _ S1) as Z1.
    destruct (prefix_cases _ _ _ _ E) as [(p1 & -> & E1)|(LP & _)]; clear E.
    2:{ left. cbn [read_steps]. rewrite readinto_short by lia.
        pose proof marker_none as M. destruct (readinto (fresh marker) []) as [mk r] eqn:ER.
        destruct (a1 osfs (p ++ zdrop (zlen p) mem) "OBS_STP_B" =? 3).
        - rewrite readinto_short by (rewrite zlen_nil; apply zlen_nonneg).
          destruct (am_beam_total ([] ++ zdrop (zlen (@nil Z)) bm)) as (g & ->). cbn [bind]. rewrite ER, M. reflexivity.
        - cbn [bind]. rewrite ER, M. reflexivity. }
    cbn [read_steps]. rewrite (st_read _ _ osfs_eq _ _ _ _ S1) by auto.
    rewrite (st_a1 _ _ osfs_eq step_nd _ _ "OBS_STP_B" S1) by reflexivity.
    destruct (Z.eq_dec (scalar (sp_step s) "OBS_STP_B") 3) as [B3|NB].
    + specialize (S3 B3). replace (scalar (sp_step s) "OBS_STP_B" =? 3) with true by (symmetry; apply Z.eqb_eq; auto).
      pose proof (st_size _ _ beamf_eq _ _ S3) as Z2.
      destruct (prefix_cases _ _ _ _ E1) as [(p2 & -> & E2)|(LP & _)]; clear E1.
      2:{ left. rewrite readinto_short by lia. destruct (am_beam_total (p1 ++ zdrop (zlen p1) bm)) as (g & ->). cbn [bind].
          pose proof marker_none as M. destruct (readinto (fresh marker) []) as [mk r]. rewrite M. reflexivity. }
      rewrite (st_read _ _ beamf_eq _ _ _ _ S3) by auto. destruct (am_beam_total b2) as (g & ->). cbn [bind].
      destruct (prefix_cases _ _ _ _ E2) as [(p3 & -> & E3)|(LP & a' & EM & NA)]; clear E2.
      * rewrite marker_good. replace (negb (a1 marker [254; 255; 255; 255] "block" =? 2 ^ 32 - 2)) with false by (rewrite marker_eq; vm_compute; reflexivity).
        destruct (IH b1 b2 fb p3 q Z1 Z2 E3 NE) as [R|(l & p' & R & EF)]; rewrite R; cbn [bind]; [auto|]. right. eauto.
      * left. pose proof (marker_bad p2 a' (eq_sym EM) NA) as M. destruct (readinto (fresh marker) p2) as [mk r]. rewrite M. reflexivity.
    + rewrite (SN NB) in E1. cbn [app] in E1. destruct (Z.eqb_spec (scalar (sp_step s) "OBS_STP_B") 3) as [E|_]; [contradiction|]. cbn [bind].
      destruct (prefix_cases _ _ _ _ E1) as [(p3 & -> & E3)|(LP & a' & EM & NA)]; clear E1.
      * rewrite marker_good. replace (negb (a1 marker [254; 255; 255; 255] "block" =? 2 ^ 32 - 2)) with false by (rewrite marker_eq; vm_compute; reflexivity).
        destruct (IH b1 bm fb p3 q Z1 LB E3 NE) as [R|(l & p' & R & EF)]; rewrite R; cbn [bind]; [auto|]. right. eauto.
      * left. pose proof (marker_bad p1 a' (eq_sym EM) NA) as M. destruct (readinto (fresh marker) p1) as [mk r]. rewrite M. reflexivity.
Qed.
