(** Proofs about VisibilityData: several integrations. *)
From Coq Require Import String List ZArith QArith Qcanon Bool Lia Permutation Sorted.
From Verif Require Import M_Vis S_Vis P_Base P_Vis P_Vis2 P_Vis3.
Import ListNotations.
Open Scope Z_scope.

Section V.
Context {PC : Type}.
Implicit Types v w c : vds PC.

Lemma separate_sym : forall v w, separate v w -> separate w v.
Proof. intros v w (U & P). split; [congruence|]. intros n r m I J. eapply P; eauto. Qed.

(** ** append *)
Lemma vd_append_cases : forall (l : vdata PC) v, vd_append l v = Raise ValueError \/
  (vd_append l v = Ok (l ++ [v]) /\ Forall (fun w => ~ (v_jd v == v_jd w)%Q) l /\
   (forall w l', l = w :: l' ->
     (0 < nbaseline w -> nbaseline v = nbaseline w) /\ (0 < nchan w -> nchan v = nchan w) /\ (0 < npol w -> npol v = npol w))).
Proof.
  intros l v. unfold vd_append.
  destruct (existsb (fun w => Qeq_bool (v_jd v) (v_jd w)) l) eqn:E; [auto|].
  assert (D : Forall (fun w => ~ (v_jd v == v_jd w)%Q) l).
  { apply Forall_forall. intros w I X. apply Bool.not_true_iff_false in E. apply E. apply existsb_exists. exists w. split; auto.
    apply Qeq_bool_iff. auto. }
  destruct l as [|w l].
  - simpl. right. split; auto. split; auto. intros; discriminate.
  - simpl first_of.
    destruct (Z.ltb_spec 0 (nbaseline w)), (Z.eqb_spec (nbaseline v) (nbaseline w)); simpl; auto;
    destruct (Z.ltb_spec 0 (nchan w)), (Z.eqb_spec (nchan v) (nchan w)); simpl; auto;
    destruct (Z.ltb_spec 0 (npol w)), (Z.eqb_spec (npol v) (npol w)); simpl; auto;
    right; split; auto; split; auto; intros w' l' Q; inversion Q; subst; repeat split; intros; auto; lia.
Qed.

Lemma pairs_snoc : forall A (R : A -> A -> Prop) l x, ForallOrdPairs R l -> Forall (fun y => R y x) l -> ForallOrdPairs R (l ++ [x]).
Proof.
  induction 1; intro F; simpl; [repeat constructor|]. inversion F; subst. constructor.
  - apply Forall_app. auto.
  - auto.
Qed.

(** Whatever is appended: no two with the same date, all of the size of the first. *)
Lemma appended_inv : forall (vs : list (vds PC)),
  different_dates (appended vs) /\
  (forall x, In x (appended vs) -> In x vs) /\
  forall w l', appended vs = w :: l' -> Forall (fun v =>
    (0 < nbaseline w -> nbaseline v = nbaseline w) /\ (0 < nchan w -> nchan v = nchan w) /\ (0 < npol w -> npol v = npol w)) (w :: l').
Proof.
  intro vs. unfold appended.
  set (Inv := fun seen (l : vdata PC) => different_dates l /\ (forall x, In x l -> In x seen) /\ forall w l', l = w :: l' -> Forall (fun v =>
    (0 < nbaseline w -> nbaseline v = nbaseline w) /\ (0 < nchan w -> nchan v = nchan w) /\ (0 < npol w -> npol v = npol w)) (w :: l')).
  assert (ST : forall seen l v, Inv seen l -> Inv (seen ++ [v]) (match vd_append l v with Ok acc => acc | Raise _ => l end)).
  { intros seen l v (D & SE & U). destruct (vd_append_cases l v) as [->|(-> & J & W)].
    - split; [auto|]. split; [|auto]. intros x I. apply in_or_app. left. auto.
    - split; [|split].
      + apply pairs_snoc; auto. eapply Forall_impl; [|exact J]. simpl. intros a X Y. apply X. symmetry. auto.
      + intros x I. apply in_app_or in I. apply in_or_app. destruct I as [I|[->|[]]]; [left; auto|right; left; auto].
      + intros w l' E. destruct l as [|w0 l]; simpl in E; inversion E; subst.
        * repeat constructor.
        * pose proof (U _ _ eq_refl) as X. inversion X; subst. constructor; auto. apply Forall_app. split; auto. constructor; [|auto].
          apply (W _ _ eq_refl). }
  assert (G : forall rest seen l, Inv seen l -> Inv (seen ++ rest) (fold_left (fun acc v => match vd_append acc v with Ok acc => acc | Raise _ => acc end) rest l)).
  { induction rest as [|v rest IH]; intros seen l I; simpl; [rewrite app_nil_r; auto|].
    replace (seen ++ v :: rest) with ((seen ++ [v]) ++ rest) by (rewrite <- app_assoc; reflexivity). apply IH. apply ST. auto. }
  apply (G vs [] []). split; [constructor|]. split; [intros x []|]. intros; discriminate.
Qed.

(** ** Every integration in turn, into a new VisibilityData *)
Definition makes (f : heap -> vds PC -> heap * res (vds PC)) (R : vds PC -> list row -> list row -> Prop) (its : list item) : Prop :=
  forall h x, In x its -> shows h (fst x) (shown_names x) (shown_rows x) ->
  exists h' c t', f h (fst x) = (h', Ok c) /\ shows h' c (shown_names x) t' /\ same_rest (fst x) c /\ fresh_from h c /\ grows h h' /\
    R (fst x) (shown_rows x) t'.

Lemma grows_refl : forall h, grows h h.
Proof. intro h. exists [], []. rewrite !app_nil_r. destruct h; auto. Qed.
Lemma grows_tr : forall a b d : heap, grows a b -> grows b d -> grows a d.
Proof. intros a b d (p & q & ->) (p' & q' & ->). exists (p ++ p'), (q ++ q'). simpl. rewrite !app_assoc. reflexivity. Qed.
Lemma fresh_older : forall h h' c, grows h h' -> fresh_from h' c -> fresh_from h c.
Proof.
  intros h h' c (p & a & ->) (U & P). simpl in *. rewrite app_length in U. split; [lia|]. intros n r I. apply P in I. rewrite app_length in I. lia.
Qed.

Lemma vd_append_ok : forall (l : vdata PC) v, Forall (fun w => ~ (v_jd v == v_jd w)%Q) l ->
  Forall (fun w => nbaseline w = nbaseline v /\ nchan w = nchan v /\ npol w = npol v) l -> vd_append l v = Ok (l ++ [v]).
Proof.
  intros l v D U. unfold vd_append.
  assert (E : existsb (fun w => Qeq_bool (v_jd v) (v_jd w)) l = false).
  { apply Bool.not_true_iff_false. intro X. apply existsb_exists in X. destruct X as (w & I & X). rewrite Forall_forall in D.
    apply (D w I). apply Qeq_bool_iff. auto. }
  rewrite E. destruct l as [|w l]; [reflexivity|]. inversion U as [|? ? (U1 & U2 & U3) _]. subst. simpl first_of.
  rewrite U1, U2, U3, !Z.eqb_refl. simpl. rewrite !andb_false_r. reflexivity.
Qed.

Lemma shows_nbaseline : forall h v names t, shows h v names t -> nbaseline v = zlen t.
Proof. intros h v names t (B & _). unfold nbaseline. rewrite B. apply zlen_map. Qed.
Lemma shows_npol : forall h v names t, shows h v names t -> npol v = zlen names.
Proof. intros h v names t (_ & _ & N & _). unfold npol. rewrite <- N. symmetry. apply zlen_map. Qed.

Lemma vd_each_ok : forall f R its nb np nc, makes f R its ->
  Forall (fun x => length (shown_names x) = np /\ length (v_freq (fst x)) = nc /\ forall t', R (fst x) (shown_rows x) t' -> length t' = nb) its ->
  different_dates (sets its) ->
  forall h, all_show h its ->
  exists h' its', vd_each f h (sets its) [] = (h', Ok (sets its')) /\ all_show h' its' /\ Forall2 (other_rows R) its its' /\
    grows h h' /\ Forall (fun y => fresh_from h (fst y)) its' /\ apart (sets its').
Proof.
  intros f R its nb np nc MK UN DD h SH.
  assert (G : forall its done h0 h, grows h0 h -> makes f R its ->
    Forall (fun x => length (shown_names x) = np /\ length (v_freq (fst x)) = nc /\ forall t', R (fst x) (shown_rows x) t' -> length t' = nb) its ->
    all_show h its -> all_show h done ->
    Forall (fun y => length (shown_names y) = np /\ length (v_freq (fst y)) = nc /\ length (shown_rows y) = nb) done ->
    Forall (fun y => fresh_from h0 (fst y)) done -> apart (sets done) -> different_dates (sets its) ->
    Forall (fun x => Forall (fun y => ~ (v_jd (fst x) == v_jd (fst y))%Q) done) its ->
    exists h' its', vd_each f h (sets its) (sets done) = (h', Ok (sets (done ++ its'))) /\ all_show h' (done ++ its') /\ Forall2 (other_rows R) its its' /\
      grows h0 h' /\ Forall (fun y => fresh_from h0 (fst y)) (done ++ its') /\ apart (sets (done ++ its'))).
  { clear. induction its as [|x its IH]; intros done h0 h GR MK UN SH SD UD FD AD DD DX; simpl.
    - exists h, []. rewrite app_nil_r. repeat split; auto.
    - inversion SH as [|? ? SX SI]; subst. inversion UN as [|? ? (U1 & U2 & U3) UI]; subst. inversion DX as [|? ? D1 DI]; subst.
      simpl in DD. inversion DD as [|? ? D2 D3]; subst.
      destruct (MK h x (or_introl eq_refl) SX) as (h1 & c & t' & E & SC & SR & FC & GC & RX). rewrite E.
      pose proof SR as (R1 & R2 & R3 & R4 & R5).
      assert (LT : length t' = nb) by auto.
      assert (AP : vd_append (sets done) c = Ok (sets done ++ [c])).
      { apply vd_append_ok.
        - apply Forall_forall. intros w I. apply in_map_iff in I. destruct I as (y & <- & I). rewrite <- R1.
          rewrite Forall_forall in D1. auto.
        - apply Forall_forall. intros w I. apply in_map_iff in I. destruct I as (y & <- & I).
          unfold all_show in SD. rewrite Forall_forall in SD, UD. destruct (UD y I) as (W1 & W2 & W3). specialize (SD y I).
          rewrite (shows_nbaseline _ _ _ _ SD), (shows_nbaseline _ _ _ _ SC), (shows_npol _ _ _ _ SD), (shows_npol _ _ _ _ SC).
          unfold nchan, zlen. rewrite <- R2. repeat split; congruence. }
      rewrite AP. set (y := (c, (shown_names x, t')) : item).
      replace (sets done ++ [c]) with (sets (done ++ [y])) by (unfold sets; rewrite map_app; reflexivity).
      destruct (IH (done ++ [y]) h0 h1) as (h' & its' & E1 & E2 & E3 & E4 & E5 & E6).
      + eapply grows_tr; eauto.
      + intros h2 z I. apply MK. right. auto.
      + auto.
      + eapply Forall_impl; [|exact SI]. simpl. intros z Z. eapply grows_shows; eauto.
      + apply Forall_app. split; [|constructor; [exact SC|constructor]]. eapply Forall_impl; [|exact SD]. simpl. intros z Z. eapply grows_shows; eauto.
      + apply Forall_app. split; auto. constructor; [|constructor]. unfold y. simpl. rewrite <- R2. auto.
      + apply Forall_app. split; auto. constructor; [|constructor]. simpl. eapply fresh_older; eauto.
      + unfold apart, sets. rewrite map_app. apply pairs_snoc; auto. apply Forall_forall. intros w I. apply in_map_iff in I.
        destruct I as (z & <- & I). unfold all_show in SD. rewrite Forall_forall in SD. eapply fresh_separate; eauto.
      + auto.
      + apply Forall_forall. intros z I. apply Forall_app. split; [rewrite Forall_forall in DI; auto|]. constructor; [|constructor].
        simpl. rewrite <- R1. rewrite Forall_forall in D2. intro Q. apply (D2 (fst z)); [apply in_map; auto|]. symmetry. auto.
      + exists h', (y :: its'). replace (done ++ y :: its') with ((done ++ [y]) ++ its') by (rewrite <- app_assoc; reflexivity).
        repeat split; auto. constructor; auto. repeat split; auto. }
  destruct (G its [] h h) as (h' & its' & H); auto.
  all: try apply grows_refl; try solve [constructor]; try (apply Forall_forall; intros; constructor).
  exists h', its'. exact H.
Qed.

(** ** Every integration in turn, in place *)
Fixpoint in_turn (g : heap -> vds PC -> heap * vds PC * res unit) (ign : bool) (h : heap) (l : vdata PC) : heap * vdata PC * res unit :=
  match l with
  | [] => (h, [], Ok tt)
  | v :: l' =>
    match g h v with
    | (h, v, Raise e) => if ign then let '(h, l', o) := in_turn g ign h l' in (h, v :: l', o) else (h, v :: l', Raise e)
    | (h, v, Ok _) => let '(h, l', o) := in_turn g ign h l' in (h, v :: l', o)
    end
  end.
Lemma sort_each_turn : forall l h, sort_each h l = in_turn (fun h v => vds_sort h v None) false h l.
Proof.
  induction l as [|v l IH]; intro h; simpl; auto. destruct (vds_sort h v None) as [[h1 v1] [u|e]]; auto. rewrite IH. reflexivity.
Qed.
Lemma vd_rephase_turn : forall A new ign l h, vd_rephase A new ign h l = in_turn (fun h v => rephase A h v new) ign h l.
Proof.
  induction l as [|v l IH]; intro h; simpl; auto. destruct (rephase A h v new) as [[h1 v1] [u|e]]; rewrite ?IH; auto.
Qed.

Lemma in_turn_ok : forall g ign (Rel : item -> item -> Prop),
  (forall h c v names t, shows h v names t -> separate c v ->
     shows (fst (fst (g h c))) v names t /\ separate (snd (fst (g h c))) v) ->
  forall its h, apart (sets its) -> all_show h its ->
  (forall h x, In x its -> shows h (fst x) (shown_names x) (shown_rows x) ->
     exists h' y o, g h (fst x) = (h', fst y, o) /\ shows h' (fst y) (shown_names y) (shown_rows y) /\ Rel x y /\ (o = Ok tt \/ ign = true)) ->
  exists h' its', in_turn g ign h (sets its) = (h', sets its', Ok tt) /\ all_show h' its' /\ Forall2 Rel its its' /\
    forall w names t, shows h w names t -> Forall (fun v => separate v w) (sets its) ->
      shows h' w names t /\ Forall (fun v => separate v w) (sets its').
Proof.
  intros g ign Rel FR. induction its as [|x its IH]; intros h AP SH ST; simpl.
  - exists h, []. split; [auto|]. split; [constructor|]. split; [constructor|]. intros. split; auto.
  - inversion SH as [|? ? SX SI]; subst. inversion AP as [|? ? A1 A2]; subst.
    destruct (ST h x (or_introl eq_refl) SX) as (h1 & y & o & E & SY & RX & OK).
    assert (F1 : forall v names t, shows h v names t -> separate (fst x) v -> shows h1 v names t /\ separate (fst y) v).
    { intros v names t S P. pose proof (FR h (fst x) v names t S P) as X. rewrite E in X. exact X. }
    destruct (IH h1) as (h' & its' & E1 & E2 & E3 & E4); auto.
    { unfold all_show in *. rewrite Forall_forall in *. intros z I. apply F1; auto. apply A1. apply in_map. auto. }
    { intros h2 z I. apply ST. right. auto. }
    assert (SY' : Forall (fun v => separate v (fst y)) (sets its)).
    { unfold all_show in SI. rewrite Forall_forall in *. intros v I. apply separate_sym. pose proof I as J. apply in_map_iff in J.
      destruct J as (z & <- & J). eapply F1; eauto. }
    destruct (E4 _ _ _ SY SY') as (SY2 & _).
    assert (RES : match g h (fst x) with
      | (h0, v, Ok _) => let '(h2, l', o1) := in_turn g ign h0 (map fst its) in (h2, v :: l', o1)
      | (h0, v, Raise e) => if ign then let '(h2, l', o1) := in_turn g ign h0 (map fst its) in (h2, v :: l', o1) else (h0, v :: map fst its, Raise e)
      end = (h', fst y :: sets its', Ok tt)).
    { rewrite E. unfold sets in E1. destruct o as [u|e]; [rewrite E1; reflexivity|]. destruct OK as [X|X]; [discriminate|]. subst ign. rewrite E1. reflexivity. }
    exists h', (y :: its'). split; [exact RES|]. split; [constructor; auto|]. split; [constructor; auto|].
    intros w names t S F. inversion F; subst. destruct (F1 w names t) as (S1 & P1); auto.
    destruct (E4 w names t S1) as (S2 & P2); auto. split; [auto|]. constructor; auto.
Qed.

(** ** sort *)
Fixpoint insert_item (x : item) (l : list (@item PC)) : list item :=
  match l with
  | [] => [x]
  | y :: l' => if Qle_bool (v_jd (fst x)) (v_jd (fst y)) then x :: y :: l' else y :: insert_item x l'
  end.
Fixpoint sort_items (l : list (@item PC)) : list item := match l with [] => [] | x :: l' => insert_item x (sort_items l') end.

Lemma insert_item_sets : forall x l, sets (insert_item x l) = insert_jd (fst x) (sets l).
Proof. induction l as [|y l IH]; simpl; auto. destruct (Qle_bool (v_jd (fst x)) (v_jd (fst y))); simpl; auto. f_equal. exact IH. Qed.
Lemma sort_items_sets : forall l, sets (sort_items l) = sort_jd (sets l).
Proof. induction l as [|x l IH]; simpl; auto. rewrite insert_item_sets, IH. reflexivity. Qed.
Lemma insert_item_perm : forall x l, Permutation (x :: l) (insert_item x l).
Proof.
  induction l as [|y l IH]; simpl; auto. destruct (Qle_bool (v_jd (fst x)) (v_jd (fst y))); auto.
  eapply perm_trans; [apply perm_swap|]. constructor. auto.
Qed.
Lemma sort_items_perm : forall l, Permutation l (sort_items l).
Proof. induction l as [|x l IH]; simpl; auto. eapply perm_trans; [|apply insert_item_perm]. constructor. auto. Qed.
Definition earlier (x y : @item PC) : Prop := (v_jd (fst x) <= v_jd (fst y))%Q.
Lemma insert_item_sorted : forall x l, StronglySorted earlier l -> StronglySorted earlier (insert_item x l).
Proof.
  intros x l H. induction H as [|y l S IH F]; simpl; [repeat constructor|].
  destruct (Qle_bool (v_jd (fst x)) (v_jd (fst y))) eqn:E.
  - apply Qle_bool_iff in E. constructor; [constructor; auto|]. constructor; auto. eapply Forall_impl; [|exact F]. unfold earlier. intros z Z.
    eapply Qle_trans; eauto.
  - assert (L : (v_jd (fst y) <= v_jd (fst x))%Q).
    { destruct (Qlt_le_dec (v_jd (fst y)) (v_jd (fst x))); [apply Qlt_le_weak; auto|]. apply Qle_bool_iff in q. congruence. }
    constructor; auto. eapply Permutation_Forall; [apply insert_item_perm|]. constructor; auto.
Qed.
Lemma sort_items_sorted : forall l, StronglySorted earlier (sort_items l).
Proof. induction l; simpl; [constructor|]. apply insert_item_sorted. auto. Qed.

Lemma apart_perm : forall l l' : vdata PC, Permutation l l' -> apart l -> apart l'.
Proof.
  unfold apart. induction 1; intro A; auto.
  - inversion A; subst. constructor; auto. eapply Permutation_Forall; eauto.
  - inversion A as [|? ? A1 A2]; subst. inversion A2 as [|? ? A3 A4]; subst. inversion A1; subst. constructor; [|constructor; auto].
    constructor; auto. apply separate_sym. auto.
Qed.

Lemma vd_sort_ok : forall h its, all_show h its -> apart (sets its) -> Forall (fun x => antennas_below 4096 (shown_rows x)) its ->
  exists h' by_date its', vd_sort h (sets its) = (h', sets its', Ok tt) /\ all_show h' its' /\
    Permutation its by_date /\ StronglySorted earlier by_date /\
    Forall2 (other_rows (fun _ => sorted_rows)) by_date its'.
Proof.
  intros h its SH AP AB. unfold vd_sort. rewrite sort_each_turn, <- sort_items_sets.
  assert (P : Permutation its (sort_items its)) by apply sort_items_perm.
  destruct (in_turn_ok (fun h v => vds_sort h v None) false (other_rows (fun _ => sorted_rows))) with (its := sort_items its) (h := h)
    as (h' & its' & E1 & E2 & E3 & _).
  - intros h0 c v names t S SP. pose proof (vds_sort_frame h0 c None) as (H1 & H2 & H3 & H4 & H5 & H6).
    pose proof S as (_ & U & _). apply nth_error_lt in U. destruct SP as (SU & SP). split.
    + eapply shows_frame; eauto. intros n r I. apply H6. intro J. apply in_map_iff in J. destruct J as ([m q] & E & J). simpl in E. subst q. eapply SP; eauto.
    + split; [destruct H2; [congruence|lia]|]. rewrite H1. auto.
  - eapply apart_perm; [|exact AP]. apply Permutation_map. auto.
  - eapply Permutation_Forall; eauto.
  - intros h0 x I S. destruct (vds_sort_default h0 (fst x) (shown_names x) (shown_rows x) S) as (h1 & v' & t' & X1 & X2 & X3 & X4 & X5).
    { rewrite Forall_forall in AB. apply AB. eapply Permutation_in; [|exact I]. apply Permutation_sym. auto. }
    exists h1, (v', (shown_names x, t')), (Ok tt). split; [auto|]. split; [auto|]. split; [|auto]. repeat split; auto; apply X3 || apply X4.
  - exists h', (sort_items its), its'. repeat split; auto. apply sort_items_sorted.
Qed.

(** ** rephase *)
Definition rephased (A : aipy PC) (new : PC) (x y : @item PC) : Prop :=
  v_jd (fst y) = v_jd (fst x) /\ v_freq (fst y) = v_freq (fst x) /\ v_aa (fst y) = v_aa (fst x) /\ v_extra (fst y) = v_extra (fst x) /\
  v_pc (fst y) = Some new /\ shown_names y = shown_names x /\
  exists old aa, v_pc (fst x) = Some old /\ v_aa (fst x) = Some aa /\ Forall2 (moved A (v_jd (fst x)) aa old new) (shown_rows x) (shown_rows y).

Lemma rephase_other : forall (A : aipy PC) new h c v names t, shows h v names t -> separate c v ->
  shows (fst (fst (rephase A h c new))) v names t /\ separate (snd (fst (rephase A h c new))) v.
Proof.
  intros A new h c v names t S P. pose proof (do_op_other A (OpRephase new) h c v names t S P) as X. simpl in X.
  destruct (rephase A h c new) as [[h1 c1] o]. exact X.
Qed.

Lemma vd_rephase_ok : forall (A : aipy PC) up new ign h its, sound_aipy A up -> all_show h its -> apart (sets its) ->
  Forall (fun x => shown_names x <> [] /\ shown_rows x <> [] /\ exists old aa, v_pc (fst x) = Some old /\ v_aa (fst x) = Some aa /\
    (ign = true \/ (up (v_jd (fst x)) aa old = true /\ up (v_jd (fst x)) aa new = true))) its ->
  exists h' its', vd_rephase A new ign h (sets its) = (h', sets its', Ok tt) /\ all_show h' its' /\
    Forall2 (fun x y => exists old aa, v_pc (fst x) = Some old /\ v_aa (fst x) = Some aa /\
      if up (v_jd (fst x)) aa old && up (v_jd (fst x)) aa new then rephased A new x y else y = x) its its'.
Proof.
  intros A up new ign h its SA SH AP HY. rewrite vd_rephase_turn.
  destruct (in_turn_ok (fun h v => rephase A h v new) ign (fun x y => exists old aa, v_pc (fst x) = Some old /\ v_aa (fst x) = Some aa /\
      if up (v_jd (fst x)) aa old && up (v_jd (fst x)) aa new then rephased A new x y else y = x)) with (its := its) (h := h)
    as (h' & its' & E1 & E2 & E3 & _); auto.
  - intros. apply rephase_other; auto.
  - intros h0 x I S. rewrite Forall_forall in HY. destruct (HY x I) as (NN & NT & old & aa & P1 & P2 & HU).
    destruct (up (v_jd (fst x)) aa old && up (v_jd (fst x)) aa new) eqn:EU.
    + apply andb_true_iff in EU. destruct EU as (U1 & U2).
      destruct (rephase_ok A up h0 (fst x) (shown_names x) (shown_rows x) old new aa SA S P1 P2 U1 U2 NN) as (h1 & v' & t' & X1 & X2 & X3 & X4 & X5 & X6 & X7 & X8).
      exists h1, (v', (shown_names x, t')), (Ok tt). split; [auto|]. split; [auto|]. split; [|auto].
      exists old, aa. rewrite U1, U2. simpl. repeat split; auto. exists old, aa. auto.
    + rewrite (rephase_down A up h0 (fst x) (shown_names x) (shown_rows x) old new aa SA S P1 P2); auto.
      * exists h0, x, (Raise RuntimeError). split; [auto|]. split; [auto|]. split; [exists old, aa; rewrite EU; auto|].
        right. destruct HU as [|(U1 & U2)]; auto. rewrite U1, U2 in EU. discriminate.
      * apply andb_false_iff in EU. auto.
  - exists h', its'. auto.
Qed.
End V.
