(** Lemmas about valid interferometer runs and the session definition files made from them. *)
From Coq Require Import Ascii String.
From Coq Require Import List ZArith Bool Lia QArith Qround Qabs Lqa Permutation Sorted.
From Verif Require Import M_Str P_Str P_Bar M_Sdf S_Sdf S_SdfValid P_SdfBack P_SdfValid M_Idf S_Idf S_IdfValid P_IdfAll.
Import ListNotations.
Open Scope Z_scope.
Ltac Zify.zify_post_hook ::= Z.div_mod_to_equations.

Section Valid.
  Variable visible : scan -> bool.
  Variable alt_visible alt_near : scan -> apc -> bool.
  Notation SOK := (scan_ok visible alt_visible alt_near).
  Notation SSOK := (scans_ok visible alt_visible alt_near).

  Lemma rate_eq : forall f, 1 <= f <= 7 -> inject_Z (drx_rate f) = samples f.
  Proof. intros f H. assert (C : f = 1 \/ f = 2 \/ f = 3 \/ f = 4 \/ f = 5 \/ f = 6 \/ f = 7) by lia. repeat (destruct C as [C|C]; [subst f; reflexivity|]). subst f. reflexivity. Qed.
  Lemma data_eq : forall o, 1 <= n_filter o <= 7 -> (scan_bytes o == station_data o)%Q.
  Proof. intros o H. unfold scan_bytes, station_data. rewrite rate_eq by auto. field. Qed.
  Lemma fits_comp : forall a b, (a == b)%Q -> fits_drsu a <-> fits_drsu b.
  Proof. intros a b H. unfold fits_drsu. rewrite H. tauto. Qed.
  (** The size of the beam. *)
  Definition no_beam (o : scan) : Prop := n_alts o <> [] /\ Z.max (n_f1 o) (n_f2 o) = 0.
  Lemma scan_raises : forall o, (exists e, SOK o = inl e) <-> no_beam o.
  Proof.
    intro o. unfold scan_ok, no_beam. destruct (n_alts o) as [|a l]; [split; [intros [e E]; discriminate|intros [H _]; contradiction]|].
    destruct (Z.eqb_spec (Z.max (n_f1 o) (n_f2 o)) 0); split; intro H; eauto; [split; [discriminate|auto]|destruct H as [e0 E]; discriminate|destruct H; contradiction].
  Qed.
  Lemma scan_zero : forall o e, SOK o = inl e -> e = ZeroDivisionError.
  Proof. intros o e H. unfold scan_ok in H. destruct (match n_alts o with [] => false | _ => _ end); congruence. Qed.
  Lemma scan_iff : forall o, SOK o = inr true <-> good_scan visible alt_visible alt_near o.
  Proof.
    intro o. unfold scan_ok.
    assert (E : forallb (fun a => alt_visible o a && alt_near o a) (n_alts o) = true <-> forall a, In a (n_alts o) -> alt_visible o a = true /\ alt_near o a = true) by (apply forallb_iff; intro; apply andb_true_iff).
    split.
    - intro H. destruct (match n_alts o with [] => false | _ => _ end); [discriminate|]. injection H as H. rewrite !andb_true_iff, !between_iff, tuning2_iff, E, fits_iff, !Z.leb_le in H. unfold MAX_ALT, DRX_MIN, DRX_MAX in H.
      destruct H as [[[[[[[A B] C] D] F] G] I] K]. split; auto; [lia|]. apply (fits_comp _ _ (data_eq o D)). auto.
    - intros [A B C D F G I K]. assert (Z0 : match n_alts o with [] => false | _ => Z.max (n_f1 o) (n_f2 o) =? 0 end = false).
      { destruct (n_alts o); auto. apply Z.eqb_neq. unfold good_tuning in B. lia. }
      rewrite Z0. f_equal. rewrite !andb_true_iff, !between_iff, tuning2_iff, E, fits_iff, !Z.leb_le. unfold MAX_ALT, DRX_MIN, DRX_MAX. apply (fits_comp _ _ (data_eq o D)) in K. unfold good_tuning in *.
      assert (N10 : Z.of_nat (length (n_alts o)) <= 10) by lia. tauto.
  Qed.
  Lemma scans_raise : forall l, (exists e, SSOK l = inl e) <-> Exists no_beam l.
  Proof.
    induction l as [|o l IH]; [split; [intros [e E]; discriminate|intro H; inversion H]|]. cbn [scans_ok]. destruct (SOK o) as [e|b] eqn:E.
    - split; [|eauto]. intros _. left. apply scan_raises. eauto.
    - split.
      + intro H. right. apply IH. destruct (SSOK l) as [e|c]; eauto. destruct H as [e H]. discriminate.
      + intro H. inversion H as [x y N|x y N]; subst; [apply scan_raises in N; destruct N as [e N]; congruence|]. apply IH in N. destruct N as [e N]. rewrite N. eauto.
  Qed.
  Lemma scans_zero : forall l e, SSOK l = inl e -> e = ZeroDivisionError.
  Proof.
    induction l as [|o l IH]; intros e H; [discriminate|]. cbn [scans_ok] in H. destruct (SOK o) as [e1|b] eqn:E; [injection H as <-; eapply scan_zero; eauto|]. destruct (SSOK l) as [e1|c]; [injection H as <-; auto|discriminate].
  Qed.
  Lemma scans_iff : forall l, SSOK l = inr true <-> Forall (good_scan visible alt_visible alt_near) l.
  Proof.
    induction l as [|o l IH]; [split; auto|]. cbn [scans_ok]. split.
    - destruct (SOK o) as [e|x] eqn:E; [discriminate|]. destruct (SSOK l) as [e|y]; [discriminate|]. intro H. injection H as H. apply andb_true_iff in H. destruct H as [-> ->]. constructor; [apply scan_iff; auto|apply IH; auto].
    - intro H. inversion H; subst. apply scan_iff in H2. rewrite H2. apply IH in H3. rewrite H3. reflexivity.
  Qed.
  Lemma str_eqb_iff : forall a b, str_eqb a b = true <-> a = b.
  Proof. intros a b. split; [apply str_eqb_true|intros ->; apply str_refl]. Qed.
  Lemma count_cons : forall s a l, count s (a :: l) = (if str_eqb s a then S (count s l) else count s l).
  Proof. intros. unfold count. cbn [filter]. destruct (str_eqb s a); reflexivity. Qed.
  Lemma count_pos : forall s l, In s l -> (1 <= count s l)%nat.
  Proof. intros s l H. unfold count. assert (X : In s (filter (str_eqb s) l)) by (apply filter_In; split; auto; apply str_refl). destruct (filter (str_eqb s) l); [destruct X|cbn; lia]. Qed.
  Lemma count_zero : forall s l, ~ In s l -> count s l = 0%nat.
  Proof. induction l as [|a l IH]; intro H; [reflexivity|]. rewrite count_cons. destruct (str_eqb s a) eqn:E; [apply str_eqb_true in E; subst; exfalso; apply H; left; auto|]. apply IH. intro X. apply H. right. auto. Qed.
  Lemma stations_iff : forall l, stations_once l = true <-> NoDup l.
  Proof.
    intro l. unfold stations_once. rewrite forallb_forall. split.
    - intro H. assert (G : forall s, (count s l <= 1)%nat). { intro s. destruct (in_dec (list_eq_dec Z.eq_dec) s l) as [I|I]; [specialize (H s I); apply Nat.eqb_eq in H; lia|rewrite count_zero by auto; lia]. }
      clear H. induction l as [|a l IH]; constructor.
      + intro X. specialize (G a). rewrite count_cons, str_refl in G. apply count_pos in X. lia.
      + apply IH. intro s. specialize (G s). rewrite count_cons in G. destruct (str_eqb s a); lia.
    - intros N s I. apply Nat.eqb_eq. induction N as [|a l A N IH]; [destruct I|]. rewrite count_cons. destruct (str_eqb s a) eqn:E.
      + apply str_eqb_true in E. subst a. rewrite count_zero by auto. reflexivity.
      + apply IH. destruct I as [<- | I]; auto. rewrite str_refl in E. discriminate.
  Qed.
  Lemma filter_same : forall l, same_filter l = true <-> forall a b, In a l -> In b l -> n_filter a = n_filter b.
  Proof.
    intro l. assert (G : same_filter l = true <-> match l with [] => True | a :: r => forall b, In b r -> n_filter b = n_filter a end).
    { induction l as [|a l IH]; [tauto|]. destruct l as [|b l]; [split; [intros _ c []|auto]|]. cbn [same_filter]. cbn [same_filter] in IH. rewrite andb_true_iff, Z.eqb_eq, IH. split.
      - intros [E H] c [<- | C]; auto. rewrite H; auto.
      - intro H. split; [apply H; left; auto|]. intros c C. rewrite (H b (or_introl eq_refl)). apply H. right. auto. }
    rewrite G. destruct l as [|a l]; [split; [intros _ a b []|auto]|]. split.
    - intros H x y [<- | X] [<- | Y]; auto; [symmetry; auto|rewrite (H x X), (H y Y); reflexivity].
    - intros H b B. apply H; [right; auto|left; auto].
  Qed.
  Lemma scans_apart_iff : forall l, Forall (fun o => 1 <= n_dur o) l -> scans_apart l = true <-> ForallOrdPairs scans_disjoint l.
  Proof.
    intros l D. unfold scans_apart, running_scans. rewrite forallb_forall. split; intro H.
    - assert (G : forall o, In o l -> ForallOrdPairs (fun a b => ((begin a <=? begin o) && (begin o <? begin a + n_dur a)) && ((begin b <=? begin o) && (begin o <? begin b + n_dur b)) = false) l).
      { intros o O. apply (few_iff _ (fun c => (begin c <=? begin o) && (begin o <? begin c + n_dur c)) l). apply Nat.leb_le. apply H. auto. }
      apply (pairs_from _ _ l l) in G; [|intros x X; auto]. revert G. apply (pairs_weaken _ _ _ _ _ D). intros a b A B [X Y]. unfold scans_disjoint. unfold begin in *. clear - A B X Y.
      rewrite !andb_false_iff, !Z.leb_gt, !Z.ltb_ge in X, Y. lia.
    - intros o O. apply Nat.leb_le. apply (few_iff _ (fun c => (begin c <=? begin o) && (begin o <? begin c + n_dur c)) l). revert H. apply (pairs_weaken _ _ _ _ _ D). intros a b A B X. unfold scans_disjoint, begin in *. clear - A B X.
      apply not_true_iff_false. intro Y. rewrite !andb_true_iff, !Z.leb_le, !Z.ltb_lt in Y. lia.
  Qed.
  Lemma total_scans : forall n l, Forall (fun o => 1 <= n_filter o <= 7) l ->
    (fold_right (fun o b => scan_bytes o * n + b) 0 l == n * fold_right Qplus 0 (map station_data l))%Q.
  Proof. induction l as [|o l IH]; intro H; cbn [fold_right map]; [ring|]. inversion H; subst. rewrite IH by auto. rewrite data_eq by auto. ring. Qed.
  Lemma negb_le_lt : forall a b, negb (Qle_bool a b) = true <-> (b < a)%Q.
  Proof.
    intros a b. rewrite negb_true_iff. split; intro H.
    - apply Qnot_le_lt. intro C. apply Qle_bool_iff in C. congruence.
    - destruct (Qle_bool a b) eqn:E; auto. apply Qle_bool_iff in E. exfalso. apply (Qlt_not_le _ _ H). exact E.
  Qed.
  Lemma run_iff : forall r, run_ok visible alt_visible alt_near r = inr true <-> good_run visible alt_visible alt_near r.
  Proof.
    intro r. unfold run_ok. split.
    - destruct (SSOK (r_scans r)) as [e|g] eqn:E; [discriminate|]. intro H. injection H as H. rewrite !andb_true_iff in H. destruct H as [[[[[A B] C] D] F] G]. subst g. apply scans_iff in E.
      apply between_iff in A. apply stations_iff in B. pose proof (proj1 (filter_same _) D) as D1. apply negb_le_lt in G. apply scans_apart_iff in F; [|revert E; apply Forall_impl; intros o [? ? ? ? ? ? ? ?]; auto].
      rewrite total_scans in G by (revert E; apply Forall_impl; intros o [? ? ? ? ? ? ? ?]; auto). clear D. split; auto.
    - intros [A B E D F G]. pose proof E as E1. apply scans_iff in E1. rewrite E1. f_equal. rewrite !andb_true_iff. apply between_iff in A. apply stations_iff in B. pose proof (proj2 (filter_same _) D) as D1. 
      assert (F1 : scans_apart (r_scans r) = true) by (apply scans_apart_iff; auto; revert E; apply Forall_impl; intros o [? ? ? ? ? ? ? ?]; auto).
      assert (G1 : negb (Qle_bool (inject_Z (Z.of_nat (length (r_stations r)) * 10 * 1024 ^ 4)) (fold_right (fun o b => (scan_bytes o * inject_Z (Z.of_nat (length (r_stations r))) + b)%Q) 0%Q (r_scans r))) = true).
      { apply negb_le_lt. rewrite total_scans; [exact G|]. revert E. apply Forall_impl. intros o [? ? ? ? ? ? ? ?]. auto. }
      tauto.
  Qed.
  Lemma iproj_iff : forall j, iproj_ok visible alt_visible alt_near j = inr true <-> (length (i_id j) <= 8)%nat /\ good_run visible alt_visible alt_near (i_run j).
  Proof.
    intro j. unfold iproj_ok. rewrite <- run_iff. destruct (run_ok visible alt_visible alt_near (i_run j)) as [e|b]; [split; [discriminate|intros [_ H]; discriminate]|].
    split; [intro H; injection H as H; rewrite andb_true_iff, Nat.leb_le in H; destruct H as [H ->]; auto|]. intros [H B]. injection B as ->. apply Nat.leb_le in H. rewrite H. reflexivity.
  Qed.
  Lemma iproj_raises : forall j, (exists e, iproj_ok visible alt_visible alt_near j = inl e) <-> Exists no_beam (r_scans (i_run j)).
  Proof.
    intro j. rewrite <- scans_raise. unfold iproj_ok, run_ok. destruct (SSOK (r_scans (i_run j))); split; intros [e1 H]; eauto; discriminate.
  Qed.
  Lemma iproj_zero : forall j e, iproj_ok visible alt_visible alt_near j = inl e -> e = ZeroDivisionError.
  Proof.
    intros j e. unfold iproj_ok, run_ok. destruct (SSOK (r_scans (i_run j))) eqn:E; [|discriminate]. intro H. injection H as <-. eapply scans_zero; eauto.
  Qed.

End Valid.
(** *** The order of the scans *)
  Lemma insert_scan_perm : forall o l, Permutation (o :: l) (insert_scan o l).
  Proof. induction l as [|c l IH]; cbn [insert_scan]; [auto|]. destruct (begin o <=? begin c); auto. etransitivity; [apply perm_swap|]. constructor. exact IH. Qed.
  Lemma sort_scans_perm : forall l, Permutation l (sort_scans l).
  Proof. induction l as [|o l IH]; cbn; [auto|]. etransitivity; [apply perm_skip; exact IH|apply insert_scan_perm]. Qed.
  Lemma insert_scan_sorted : forall o l, StronglySorted (fun a b => begin a <= begin b) l -> StronglySorted (fun a b => begin a <= begin b) (insert_scan o l).
  Proof.
    induction l as [|c l IH]; intro H; cbn [insert_scan]; [repeat constructor|]. inversion H as [|x y S F]; subst. destruct (Z.leb_spec (begin o) (begin c)).
    - constructor; auto. constructor; auto. revert F. apply Forall_impl. intros; lia.
    - constructor; auto. apply insert_scan_forall; [lia|auto].
  Qed.
  Lemma sort_scans_sorted : forall l, StronglySorted (fun a b => begin a <= begin b) (sort_scans l).
  Proof. induction l as [|o l IH]; cbn; [constructor|]. apply insert_scan_sorted. auto. Qed.

(** *** Session definition files *)
Section Told.
  Variable sec : Q -> Q.
  Variable visible : scan -> bool.
  Variable alt_visible alt_near : scan -> apc -> bool.

  Lemma moving_iff : forall pm, moving pm = true <-> ~ (fst pm == 0 /\ snd pm == 0)%Q.
  Proof.
    intro pm. unfold moving. pose proof (Qeq_bool_iff (fst pm) 0) as A. pose proof (Qeq_bool_iff (snd pm) 0) as B.
    destruct (Qeq_bool (fst pm) 0); destruct (Qeq_bool (snd pm) 0); cbn [negb orb].
    - split; [discriminate|]. intro N. exfalso. apply N. split; [apply A|apply B]; reflexivity.
    - split; [|reflexivity]. intros _ [_ Y]. apply B in Y. discriminate.
    - split; [|reflexivity]. intros _ [X _]. apply A in X. discriminate.
    - split; [|reflexivity]. intros _ [X _]. apply A in X. discriminate.
  Qed.
  Lemma scan_remarked : forall o b, scan_obs sec o = inr b -> remarked o b.
  Proof.
    intros o b H. unfold scan_obs in H. unfold remarked. destruct (n_to o) as [ra de pm| |] eqn:T.
    - unfold moved in H. destruct (n_comments o) as [c|]; [|discriminate]. destruct (_ || _); [discriminate|]. destruct (_ || _); [discriminate|]. injection H as <-.
      cbn [fresh_obs o_comments]. exists c, (if moving pm then pm_note pm else []). split; [destruct (moving pm); [reflexivity|rewrite app_nil_r; reflexivity]|]. split; [auto|].
      pose proof (moving_iff pm) as M. destruct (moving pm).
      + split; [intros _; exists ra, de, pm; split; [reflexivity|tauto]|]. intros _ N. apply (f_equal (@length Z)) in N. unfold pm_note in N. rewrite app_length in N. cbn in N. discriminate.
      + split; [congruence|]. intros (ra' & de' & pm' & E & N). injection E as <- <- <-. exfalso. apply M in N. discriminate.
    - injection H as <-. cbn [fresh_obs o_comments]. exists (remarks o), []. rewrite app_nil_r. split; [reflexivity|]. split; [unfold remarks; destruct (n_comments o); auto|].
      split; [congruence|]. intros (ra' & de' & pm' & E & N). discriminate.
    - injection H as <-. cbn [fresh_obs o_comments]. exists (remarks o), []. rewrite app_nil_r. split; [reflexivity|]. split; [unfold remarks; destruct (n_comments o); auto|].
      split; [congruence|]. intros (ra' & de' & pm' & E & N). discriminate.
  Qed.
  Lemma scan_does : forall o b, scan_obs sec o = inr b -> does sec o b.
  Proof.
    intros o b H. assert (R := scan_remarked o b H). unfold scan_obs in H. unfold does, same_time, same_tunings, same_target, nothing_else. destruct (n_to o) as [ra de pm| |].
    - unfold moved in H. destruct (n_comments o) as [c|]; [|discriminate]. destruct (_ || _); [discriminate|]. destruct (_ || _); [discriminate|]. injection H as <-.
      cbn [fresh_obs o_name o_target o_mjd o_mpm o_dur o_setup o_gain o_bdm o_fee o_flt o_at1 o_at2 o_at3]. change NSTD with 256%nat. repeat (split; [reflexivity|]). split; [tauto|]. split; [tauto|]. split; [|auto 12].
      exists (epoch o). unfold epoch. split; [field|]. split; field.
    - injection H as <-. cbn [fresh_obs o_name o_target o_mjd o_mpm o_dur o_setup o_gain o_bdm o_fee o_flt o_at1 o_at2 o_at3]. change NSTD with 256%nat. auto 20.
    - injection H as <-. cbn [fresh_obs o_name o_target o_mjd o_mpm o_dur o_setup o_gain o_bdm o_fee o_flt o_at1 o_at2 o_at3]. change NSTD with 256%nat. auto 20.
  Qed.
  Lemma scan_can : forall o, (exists b, scan_obs sec o = inr b) <-> can_track sec o.
  Proof.
    intro o. unfold scan_obs, can_track. destruct (n_to o) as [ra de pm| |]; [|split; eauto..].
    unfold moved. assert (Y : (epoch o == (inject_Z (n_mjd o) + inject_Z (n_mpm o) / 86400000 - (515445 # 10)) / (36525 # 100))%Q) by (unfold epoch; field).
    cbv zeta. set (years := ((inject_Z (n_mjd o) + inject_Z (n_mpm o) / 86400000 - (515445 # 10)) / (36525 # 100))%Q) in *.
    assert (R : (ra + epoch o * fst pm * sec de / 1000 / 3600 / 15 == ra + years * fst pm * sec de / 54000000)%Q) by (rewrite Y; field).
    assert (D : (de + epoch o * snd pm / 1000 / 3600 == de + years * snd pm / 3600000)%Q) by (rewrite Y; field).
    set (r := (ra + epoch o * fst pm * sec de / 1000 / 3600 / 15)%Q) in *. set (d := (de + epoch o * snd pm / 1000 / 3600)%Q) in *. rewrite <- R, <- D.
    clearbody r d. clear R D Y years. destruct (n_comments o) as [c|]; [|split; [intros [b B]; discriminate|intros [H _]; contradiction]].
    assert (E1 : negb (Qle_bool 0 r) || Qle_bool 24 r = false <-> (0 <= r /\ r < 24)%Q).
    { rewrite orb_false_iff, negb_false_iff, Qle_bool_iff. rewrite <- (negb_le_lt 24 r), negb_true_iff. tauto. }
    assert (E2 : negb (Qle_bool (-90) d) || negb (Qle_bool d 90) = false <-> (-90 <= d /\ d <= 90)%Q) by (rewrite orb_false_iff, !negb_false_iff, !Qle_bool_iff; tauto).
    destruct (negb (Qle_bool 0 r) || Qle_bool 24 r); [split; [intros [b B]; discriminate|intros (_ & A & B & _); assert (true = false) by tauto; discriminate]|].
    destruct (negb (Qle_bool (-90) d) || negb (Qle_bool d 90)); [split; [intros [b B]; discriminate|intros (_ & _ & _ & A & B); assert (true = false) by tauto; discriminate]|].
    split; [|eauto]. intros _. split; [discriminate|]. tauto.
  Qed.
  Lemma scans_do : forall l e k bs, scan_obss sec e k l = inr bs -> Forall2 (does sec) l bs.
  Proof.
    induction l as [|o l IH]; intros e k bs H; cbn [scan_obss] in H; [injection H as <-; constructor|]. destruct (scan_obs sec o) as [x|b] eqn:E; [discriminate|].
    destruct (match n_alts o with [] => false | _ => _ end); [discriminate|]. destruct (scan_obss sec e (k + 1) l) as [x|bs'] eqn:F; [discriminate|]. injection H as <-. constructor; [apply scan_does; auto|eapply IH; eauto].
  Qed.
  Lemma scans_can : forall l e k, (exists bs, scan_obss sec e k l = inr bs) <-> Forall (can_track sec) l /\ forall i o, nth_error l i = Some o -> n_alts o <> [] -> k + Z.of_nat i < e.
  Proof.
    induction l as [|o l IH]; intros e k; cbn [scan_obss].
    - split; [|eauto]. intros _. split; [constructor|]. intros [|i] o H; discriminate.
    - split.
      + intros [bs H]. destruct (scan_obs sec o) as [x|b] eqn:E; [discriminate|]. destruct (match n_alts o with [] => false | _ => _ end) eqn:A; [discriminate|].
        destruct (scan_obss sec e (k + 1) l) as [x|bs'] eqn:F; [discriminate|]. destruct (proj1 (IH e (k + 1)) (ex_intro _ bs' F)) as [G I]. split; [constructor; auto; apply scan_can; eauto|].
        intros [|i] c C N; cbn in C; [injection C as <-; destruct (n_alts o); [contradiction|]; apply Z.leb_gt in A; lia|]. specialize (I i c C N). lia.
      + intros [F I]. inversion F; subst. apply scan_can in H1. destruct H1 as [b B]. rewrite B.
        assert (A : match n_alts o with [] => false | _ => e <=? k end = false). { destruct (n_alts o) eqn:N; auto. apply Z.leb_gt. specialize (I 0%nat o eq_refl). rewrite N in I. cbn in I. assert (k + 0 < e) by (apply I; discriminate). lia. }
        rewrite A. destruct (proj2 (IH e (k + 1))) as [bs BS]; [|rewrite BS; eauto]. split; auto. intros i c C N. specialize (I (S i) c C N). lia.
  Qed.
  Lemma of_titled : forall a b i n, of_text a b i n = titled a b i n.
  Proof. reflexivity. Qed.
  Lemma stations_told : forall l j f sid i ps, station_sdfs sec j f sid i l = inr ps ->
    length ps = length l /\ forall k p, nth_error ps k = Some p -> exists s, nth_error l k = Some s /\
      exists bs, Forall2 (does sec) (r_scans (i_run j)) bs /\
        p = mkProj (i_pi j) (i_piname j) (i_id j) (titled (i_name j) s (Z.of_nat k + i) (Z.of_nat (length (r_stations (i_run j))))) (i_comments j)
             (mkSes (sid + Z.of_nat k) (titled (r_name (i_run j)) s (Z.of_nat k + i) (Z.of_nat (length (r_stations (i_run j))))) [] (tx "UCF") 0 1 0 0 [] (repeat (-1) 9) (repeat (-1) 9) false false true false bs).
  Proof.
    induction l as [|s l IH]; intros j f sid i ps H; cbn [station_sdfs] in H; [injection H as <-; split; [auto|]; intros [|k] p P; discriminate|].
    destruct (station_sdf sec j f sid i s) as [e|p0] eqn:E; [discriminate|]. destruct (station_sdfs sec j f (sid + 1) (i + 1) l) as [e|ps'] eqn:F; [discriminate|]. injection H as <-.
    destruct (IH _ _ _ _ _ F) as [L G]. split; [cbn; auto|]. intros [|k] p P; cbn [nth_error] in P.
    - injection P as <-. exists s. split; [reflexivity|]. unfold station_sdf in E. destruct (f_runs f); [|discriminate]. cbn [negb] in E. destruct (f_scans f) as [en|]; [|discriminate].
      destruct (scan_obss sec en 0 (r_scans (i_run j))) as [e|bs] eqn:B; [discriminate|]. exists bs. split; [eapply scans_do; eauto|]. apply inr_inj in E. rewrite <- E. rewrite !of_titled. rewrite Z.add_0_r. reflexivity.
    - destruct (G k p P) as (s' & S' & bs & B & ->). exists s'. split; [exact S'|]. exists bs. split; auto. replace (Z.of_nat (S k) + i) with (Z.of_nat k + (i + 1)) by lia. replace (sid + Z.of_nat (S k)) with (sid + 1 + Z.of_nat k) by lia. reflexivity.
  Qed.
  Lemma stations_can : forall l j f sid i, (exists ps, station_sdfs sec j f sid i l = inr ps) <-> (l <> [] -> f_runs f = true /\ exists e, f_scans f = Some e /\ exists bs, scan_obss sec e 0 (r_scans (i_run j)) = inr bs).
  Proof.
    induction l as [|s l IH]; intros j f sid i; cbn [station_sdfs]; [split; [intros _ N; contradiction|eauto]|]. unfold station_sdf. split.
    - intros [ps H] _. destruct (f_runs f); [|discriminate]. split; auto. cbn [negb] in H. destruct (f_scans f) as [e|]; [|discriminate]. exists e. split; auto. destruct (scan_obss sec e 0 (r_scans (i_run j))) as [x|bs]; [discriminate|eauto].
    - intro H. destruct H as (A & e & B & bs & C); [discriminate|]. destruct (proj2 (IH j f (sid + 1) (i + 1))) as [ps P]; [intros _; eauto 10|]. rewrite A, B, C, P. cbn [negb]. eauto.
  Qed.
  Lemma does_bytes : forall o b, does sec o b -> 1 <= n_filter o <= 7 -> (bytes 0 0 [] b == station_data o)%Q.
  Proof.
    intros o b (_ & _ & (_ & _ & D) & T & _) F. unfold same_tunings in T. unfold bytes. destruct (o_setup b) as [| |k f1 f2 f h|]; try contradiction. destruct T as (_ & _ & -> & _). rewrite D.
    unfold drx_bytes, station_data. change (0 * 0 =? 0) with true. cbv iota. rewrite rate_eq by auto. field.
  Qed.
  Lemma does_upd : forall o b, does sec o b -> upd b = b.
  Proof. intros o b (_ & _ & _ & T & _). unfold same_tunings in T. unfold upd. destruct (o_setup b); try contradiction; reflexivity. Qed.
  Lemma does_settings : forall o b, does sec o b -> good_settings b.
  Proof.
    intros o b (_ & _ & _ & _ & _ & _ & (_ & A & B & C & D & E) & _). unfold good_settings. rewrite A, B, C, D, E, !repeat_length. split; [lia|].
    repeat split; try (apply repeat_spec in H; subst; cbn; lia).
  Qed.
  Lemma does_all : forall (P : scan -> obs -> Prop) l bs, (forall o b, In o l -> does sec o b -> P o b) -> Forall2 (does sec) l bs -> Forall2 P l bs.
  Proof. intros P l bs H F. induction F as [|o b l bs D F IH]; constructor; [apply H; [left; auto|auto]|apply IH; intros; apply H; [right; auto|auto]]. Qed.
  Lemma does_right : forall (P : obs -> Prop) l bs, (forall o b, In o l -> does sec o b -> P b) -> Forall2 (does sec) l bs -> Forall P bs.
  Proof. intros P l bs H F. induction F as [|o b l bs D F IH]; constructor; [eapply H; [left; reflexivity|eauto]|apply IH; intros; eapply H; [right; eauto|eauto]]. Qed.
  Lemma does_total : forall l bs, Forall (fun o => 1 <= n_filter o <= 7) l -> Forall2 (does sec) l bs -> (fold_right Qplus 0 (map (bytes 0 0 []) bs) == fold_right Qplus 0 (map station_data l))%Q.
  Proof. intros l bs H F. induction F as [|o b l bs D F IH]; [reflexivity|]. inversion H; subst. cbn [map fold_right]. rewrite IH by auto. rewrite (does_bytes o b) by auto. reflexivity. Qed.
  Lemma does_pairs : forall l bs, Forall2 (does sec) l bs -> ForallOrdPairs scans_disjoint l -> ForallOrdPairs disjoint bs.
  Proof.
    intros l bs F. induction F as [|o b l bs D F IH]; intro H; [constructor|]. inversion H as [|x y A B]; subst. constructor; [|auto].
    clear - D F A. induction F as [|o' b' l bs D' F IH]; constructor; inversion A; subst; auto.
    destruct D as (_ & _ & (D1 & D2 & D3) & _). destruct D' as (_ & _ & (E1 & E2 & E3) & _). unfold disjoint, scans_disjoint in *. rewrite D1, D2, D3, E1, E2, E3. auto.
  Qed.
  Lemma pairs_perm : forall (A : Type) (R : A -> A -> Prop) l m, (forall a b, R a b -> R b a) -> Permutation l m -> ForallOrdPairs R l -> ForallOrdPairs R m.
  Proof.
    intros A R l m S P. induction P as [|x l m P IH|x y l|l m n P IH Q JH]; intro H; auto.
    - inversion H; subst. constructor; auto. eapply Permutation_Forall; eauto.
    - inversion H as [|? ? F1 G]; subst. inversion G as [|? ? F2 G2]; subst. inversion F1; subst. constructor; [constructor; auto|]. constructor; auto.
  Qed.
  Lemma sum_perm : forall l m, Permutation l m -> (fold_right Qplus 0 l == fold_right Qplus 0 m)%Q.
  Proof. intros l m P. induction P as [|x l m P IH|x y l|l m n P IH Q JH]; cbn [fold_right]; [reflexivity|rewrite IH; reflexivity|ring|rewrite IH; auto]. Qed.
  (** A station is told to do something valid. *)
  Lemma told_valid : forall seen j scans sid ps, good_run visible alt_visible alt_near (i_run j) -> (length (i_id j) <= 8)%nat -> Permutation (r_scans (i_run j)) scans -> told sec j scans sid ps -> (forall p, In p ps -> s_cra (j_ses p) = 0 /\ s_meta (j_ses p) = [] /\ s_record (j_ses p) = repeat (-1) 9 /\ s_update (j_ses p) = repeat (-1) 9) ->
    1 <= sid -> sid + Z.of_nat (length ps) <= 10000 -> (forall o b, In o scans -> visible o = true -> does sec o b -> seen b = true) -> Forall (fun p => project_ok seen p = inr true) ps.
  Proof.
    intros seen j scans sid ps G ID P [L T] X S1 S2 V. apply Forall_forall. intros p I. destruct (In_nth_error _ _ I) as [k K]. destruct (T k p K) as (s & SS & _ & _ & _ & _ & IDP & _ & B1 & B2 & B3 & B4 & F).
    destruct (X p I) as (C1 & C2 & C3 & C4). assert (KL : (k < length ps)%nat) by (apply nth_error_Some; congruence). destruct G as [G1 G2 G3 G4 G5 G6].
    assert (G3' : Forall (good_scan visible alt_visible alt_near) scans) by (eapply Permutation_Forall; eauto).
    assert (FL : Forall (fun o => 1 <= n_filter o <= 7) scans) by (revert G3'; apply Forall_impl; intros o [? ? ? ? ? ? ? ?]; auto).
    assert (U : map upd (s_obs (j_ses p)) = s_obs (j_ses p)).
    { clear - F. induction F as [|o b l bs D F IH]; [reflexivity|]. cbn [map]. rewrite (does_upd o b D), IH. reflexivity. }
    assert (DD : Forall (fun o => 1 <= o_dur o) (map upd (s_obs (j_ses p)))).
    { rewrite U. revert F. apply does_right. intros o b O (_ & _ & (_ & _ & D) & _). rewrite D. rewrite Forall_forall in G3'. apply (gs_dur _ _ _ _ (G3' o O)). }
    assert (OK : Forall (fun o => obs_ok seen (s_nchan (j_ses p)) (s_nwin (j_ses p)) (s_meta (j_ses p)) o = inr true) (map upd (s_obs (j_ses p)))).
    { rewrite U, B3, B4, C2. revert F. apply does_right. intros o b O D. rewrite Forall_forall in G3'. specialize (G3' o O). pose proof (does_bytes o b D) as DB. pose proof (does_settings o b D) as DS. pose proof (V o b O (gs_visible _ _ _ _ G3') D) as DV.
      destruct G3' as [E1 E2 E3 E4 E5 E6 E7 E8]. apply obs_iff; [destruct D as (_ & _ & _ & T1 & _); unfold same_tunings in T1; destruct (o_setup b); try contradiction; auto|]. split; [|split; [auto|apply (fits_comp _ _ (DB E4)); auto]].
      destruct D as (_ & _ & (_ & _ & D) & T1 & _). unfold good_mode. unfold same_tunings in T1. destruct (o_setup b); try contradiction. destruct T1 as (-> & -> & -> & _). rewrite D. auto. }
    unfold project_ok. assert (SK : session_ok seen (j_ses p) = inr true); [|rewrite SK, IDP; apply Nat.leb_le in ID; rewrite ID; reflexivity].
    apply session_iff; auto. split; auto. split.
    - rewrite B1. lia.
    - rewrite C1. lia.
    - rewrite B2. lia.
    - rewrite C3. apply Forall_forall. intros x Y. apply repeat_spec in Y. lia.
    - rewrite C4. apply Forall_forall. intros x Y. apply repeat_spec in Y. lia.
    - left. rewrite B3, B4, C2. split; [lia|]. split; [lia|reflexivity].
    - revert OK. apply Forall_impl. intro o. apply obs_sound.
    - right. revert F. apply does_right. intros o b _ (_ & _ & _ & T1 & _). unfold same_tunings in T1. unfold tb. destruct (o_setup b); tauto.
    - rewrite U. apply (does_pairs scans); auto. eapply pairs_perm; [|exact P|exact G5]. intros x y. unfold scans_disjoint. tauto.
    - rewrite U, B3, B4, C2. unfold fits_drsu. rewrite (does_total scans) by auto. rewrite <- (sum_perm _ _ (Permutation_map station_data P)). rewrite <- L in G6.
      assert (N : (0 < inject_Z (Z.of_nat (length ps)))%Q) by (rewrite <- (Zlt_Qlt 0); lia). rewrite <- Z.mul_assoc, inject_Z_mult in G6. apply Qmult_lt_l in G6; auto.
  Qed.
  Lemma generate_told : forall f sid j ps, generate_sdfs sec visible alt_visible alt_near f sid j = inr ps ->
    iproj_ok visible alt_visible alt_near j = inr true /\ told sec j (sort_scans (r_scans (i_run j))) sid ps /\ (forall p, In p ps -> s_cra (j_ses p) = 0 /\ s_meta (j_ses p) = [] /\ s_record (j_ses p) = repeat (-1) 9 /\ s_update (j_ses p) = repeat (-1) 9).
  Proof.
    intros f sid j ps H. unfold generate_sdfs in H. destruct (iproj_ok visible alt_visible alt_near j) as [e|[]] eqn:E; [discriminate| |discriminate]. split; [reflexivity|].
    destruct (r_scans (i_run (in_order j))) as [|o l] eqn:R; [discriminate|]. apply stations_told in H. destruct H as [L H]. split.
    - split; [exact L|]. intros k p K. destruct (H k p K) as (s & S & bs & B & ->). exists s. split; [exact S|]. cbn [in_order with_run with_scans i_run r_scans i_pi i_piname i_id i_name i_comments r_name r_stations j_name j_ses j_pi j_piname j_id j_comments s_id s_name s_beam s_nchan s_nwin s_obs] in *. rewrite L. auto 20.
    - intros p I. destruct (In_nth_error _ _ I) as [k K]. destruct (H k p K) as (s & S & bs & B & ->). cbn. auto.
  Qed.
  Lemma generate_can : forall f sid j, r_stations (i_run j) <> [] -> iproj_ok visible alt_visible alt_near j = inr true ->
    ((exists ps, generate_sdfs sec visible alt_visible alt_near f sid j = inr ps) <-> can_tell sec f (sort_scans (r_scans (i_run j)))).
  Proof.
    intros f sid j NS V. unfold generate_sdfs. rewrite V. change (r_scans (i_run (in_order j))) with (sort_scans (r_scans (i_run j))). unfold can_tell. split.
    - intros [ps H]. destruct (sort_scans (r_scans (i_run j))) as [|o l] eqn:E; [discriminate|]. split; [discriminate|].
      destruct (proj1 (stations_can _ _ _ _ _) (ex_intro _ ps H) NS) as (A & e & B & C). change (r_scans (i_run (in_order j))) with (sort_scans (r_scans (i_run j))) in C. rewrite E in C. apply scans_can in C. destruct C as [C D]. split; auto. split; auto. exists e. auto.
    - intros (N & A & B & e & C & D). destruct (sort_scans (r_scans (i_run j))) as [|o l] eqn:E; [contradiction|]. apply stations_can. intros _. split; auto. exists e. split; auto.
      change (r_scans (i_run (in_order j))) with (sort_scans (r_scans (i_run j))). rewrite E. apply scans_can. auto.
  Qed.
End Told.
