(** Visibility data sets: the theorems. *)
From Coq Require Import String.
From Coq Require Import List ZArith QArith Qcanon Bool Lia Permutation Sorted.
From Verif Require Import M_Vis S_Vis P_Base P_Vis P_Vis2 P_Vis3 P_VisData.
Import ListNotations.
Open Scope Z_scope.

(** A data set for the examples: two baselines, out of order, two polarizations and one channel. *)
Definition ex_cell (x : Z) (m : bool) : cell := ([(Q2Qc (inject_Z x), 0%Qc)], [1%Qc], [m]).
Definition ex_row1 : row := mkR (1, 2) [(1, 0, 0)%Q] [ex_cell 1 true; ex_cell 2 false].
Definition ex_row2 : row := mkR (0, 2) [(3, 4, 0)%Q] [ex_cell 3 false; ex_cell 4 true].
Definition ex_names : list string := ["XX"; "YY"]%string.
Definition ex_set (jd : Q) (u k : nat) (t : list row) : vds Z :=
  mkV jd [60000000%Q] (map r_bl t) u (Some [10; 20; 30]) (Some 0) (refs_from k ex_names) [("run"%string, 7)].
Definition ex_heap (l : list (list row)) : heap := mkH (flat_map (columns ex_names) l) (map (map r_uvw) l).
Lemma ex_shows : forall jd l1 t l2, Forall (fun r => length (r_cells r) = 2%nat) t ->
  shows (ex_heap (l1 ++ t :: l2)) (ex_set jd (length l1) (2 * length l1) t) ex_names t.
Proof.
  intros jd l1 t l2 F. unfold shows. simpl v_pols. split; [reflexivity|]. split.
  { unfold ex_heap. simpl. rewrite map_app. simpl. rewrite nth_error_app2 by (rewrite map_length; lia). rewrite map_length, Nat.sub_diag. reflexivity. }
  split; [reflexivity|]. split; [repeat constructor; simpl; intuition discriminate|]. split; [exact F|].
  assert (L : length (flat_map (columns ex_names) l1) = (2 * length l1)%nat) by (induction l1; simpl in *; lia).
  intros k name r E. unfold ex_heap. simpl hp. rewrite flat_map_app.
  destruct k as [|[|k]]; simpl in E; [| |destruct k; discriminate].
  - inversion E. subst. split; [reflexivity|].
    rewrite nth_error_app2 by (change (2 * length l1 <= length l1 + (length l1 + 0))%nat in L || lia). rewrite L.
    replace (length l1 + (length l1 + 0) - 2 * length l1)%nat with O by lia. reflexivity.
  - inversion E. subst. split; [reflexivity|].
    rewrite nth_error_app2 by (rewrite L; lia). rewrite L.
    replace (S (length l1 + (length l1 + 0)) - 2 * length l1)%nat with 1%nat by lia. reflexivity.
Qed.
Definition ex_table : list row := [ex_row1; ex_row2].
Definition ex_h : heap := ex_heap [ex_table].
Definition ex_v : vds Z := ex_set 1 0 0 ex_table.
Lemma ex_ok : shows ex_h ex_v ex_names ex_table.
Proof. apply (ex_shows 1 [] ex_table []). repeat constructor. Qed.

(** ** Rows stay together *)
(** Sorting puts whole rows (baseline, uvw, data, weight and mask of all polarizations) into the order of the baselines,
    and keeps the order of rows of the same baseline.  Antenna numbers below 4096. *)
Lemma C58_sort_proof : forall (PC : Type) h (v : vds PC) names t, shows h v names t -> antennas_below 4096 t ->
  exists h' v' t', vds_sort h v None = (h', v', Ok tt) /\ shows h' v' names t' /\ same_rest v v' /\ sorted_rows t t'.
Proof.
  intros PC h v names t S A. destruct (vds_sort_default h v names t S A) as (h' & v' & t' & E & S' & R & O & _). exists h', v', t'. auto.
Qed.
Lemma C58_sort_example_proof : shows ex_h ex_v ex_names ex_table /\ antennas_below 4096 ex_table /\
  map r_bl ex_table = [(1, 2); (0, 2)] /\ v_bl (snd (fst (vds_sort ex_h ex_v None))) = [(0, 2); (1, 2)].
Proof. split; [exact ex_ok|]. split; [repeat constructor; simpl; lia|]. split; [reflexivity|]. vm_compute. reflexivity. Qed.
(** With an order of its own, row [i] becomes the row the order asks for. *)
Lemma C58_sort_order_proof : forall (PC : Type) h (v : vds PC) names t o, shows h v names t ->
  valid_order (Z.of_nat (length t)) o -> length o = length t ->
  exists h' v' t', vds_sort h v (Some o) = (h', v', Ok tt) /\ shows h' v' names t' /\ same_rest v v' /\ picks t o t'.
Proof. intros PC h v names t o S V L. apply vds_sort_given; auto. Qed.
Lemma C58_sort_order_example_proof : valid_order (Z.of_nat (length ex_table)) [-1; 0] /\ picks ex_table [-1; 0] [ex_row2; ex_row1].
Proof. split; [repeat constructor; simpl; lia|reflexivity]. Qed.
(** A position out of range is an IndexError and changes nothing. *)
Lemma C58_sort_bad_order_proof : forall (PC : Type) h (v : vds PC) names t o, shows h v names t ->
  ~ valid_order (Z.of_nat (length t)) o -> vds_sort h v (Some o) = (h, v, Raise IndexError).
Proof. intros PC h v names t o S V. eapply vds_sort_invalid; eauto. Qed.
Lemma C58_sort_bad_order_example_proof : ~ valid_order (Z.of_nat (length ex_table)) [0; 2].
Proof. intro X. inversion X as [|? ? _ Y]. inversion Y. simpl in *. lia. Qed.
(** REFUTED: an order of the wrong length is a ValueError after the baselines were changed: no table any more. *)
Lemma C58_sort_wrong_length_refuted_proof : forall (PC : Type) h (v : vds PC) names t o, shows h v names t -> names <> [] ->
  valid_order (Z.of_nat (length t)) o -> length o <> length t ->
  exists h' v', vds_sort h v (Some o) = (h', v', Raise ValueError) /\ forall names' t', ~ shows h' v' names' t'.
Proof.
  intros PC h v names t o S NN V L. destruct (vds_sort_short h v names t o S V L NN) as (h' & v' & E & LB & VP & HP).
  exists h', v'. split; auto. intros names' t' S'.
  pose proof S as (_ & _ & N & _). destruct (v_pols v) as [|[n r] l] eqn:EV; [exfalso; apply NN; rewrite <- N; reflexivity|].
  assert (K : nth_error (v_pols v) 0 = Some (n, r)) by (rewrite EV; reflexivity).
  assert (K' : nth_error (v_pols v') 0 = Some (n, r)) by (rewrite VP; reflexivity).
  destruct (shows_col _ _ _ _ _ _ _ S K) as (_ & C1). destruct (shows_col _ _ _ _ _ _ _ S' K') as (_ & C2).
  rewrite HP in C2. rewrite C1 in C2. inversion C2 as [[E1 E2 E3]]. apply (f_equal (@length _)) in E3. rewrite !map_length in E3.
  destruct S' as (B & _). apply (f_equal (@length _)) in B. rewrite map_length in B. rewrite LB in B. apply L. rewrite B. symmetry. exact E3.
Qed.
Lemma C58_sort_wrong_length_example_proof : shows ex_h ex_v ex_names ex_table /\ ex_names <> [] /\ valid_order (Z.of_nat (length ex_table)) [1] /\
  v_bl (snd (fst (vds_sort ex_h ex_v (Some [1])))) = [(0, 2)].
Proof. split; [exact ex_ok|]. split; [discriminate|]. split; [repeat constructor; simpl; lia|reflexivity]. Qed.
(** REFUTED: two data sets that were given the same polarization object: sorting one breaks the other. *)
Lemma C58_sort_shared_refuted_proof : exists h (v w : vds Z) names t h' v',
  shows h v names t /\ shows h w names t /\ vds_sort h v None = (h', v', Ok tt) /\ ~ shows h' w names t.
Proof.
  exists ex_h, ex_v, (ex_set 2 0 0 ex_table), ex_names, ex_table.
  destruct (vds_sort ex_h ex_v None) as [[h' v'] o] eqn:E. exists h', v'.
  split; [exact ex_ok|]. split; [apply (ex_shows 2 [] ex_table []); repeat constructor|].
  assert (X : o = Ok tt /\ exists p, nth_error (hp h') 0 = Some p /\ p_mask p = [[false]; [true]]).
  { vm_compute in E. inversion E. split; auto. eexists. split; reflexivity. }
  destruct X as (-> & p & Ep & Mp). split; [reflexivity|]. intro S.
  assert (K : nth_error (v_pols (ex_set 2 0 0 ex_table)) 0 = Some ("XX"%string, 0%nat)) by reflexivity.
  destruct (shows_col _ _ _ _ _ _ _ S K) as (_ & C1). rewrite Ep in C1. inversion C1. subst p. discriminate Mp.
Qed.
(** REFUTED: baselines are compared by 4096 a + b, which is not the order of (a, b) from antenna 4096 on. *)
Lemma C58_sort_large_antenna_refuted_proof : exists h (v : vds Z) names t h' v', shows h v names t /\ vds_sort h v None = (h', v', Ok tt) /\
  forall t', shows h' v' names t' -> ~ sorted_rows t t'.
Proof.
  set (t := [mkR (0, 5000) [] [ex_cell 1 true; ex_cell 2 true]; mkR (1, 2) [] [ex_cell 1 true; ex_cell 2 true]]).
  exists (ex_heap [t]), (ex_set 1 0 0 t), ex_names, t.
  destruct (vds_sort (ex_heap [t]) (ex_set 1 0 0 t) None) as [[h' v'] o] eqn:E. exists h', v'.
  assert (X : o = Ok tt /\ v_bl v' = [(1, 2); (0, 5000)]) by (vm_compute in E; inversion E; auto). destruct X as (-> & X).
  split; [apply (ex_shows 1 [] t []); repeat constructor|]. split; [reflexivity|].
  intros t' (B & _) (_ & SS & _). rewrite X in B. destruct t' as [|r1 [|r2 t']]; try discriminate. simpl in B. inversion B as [[B1 B2 B3]].
  inversion SS as [|? ? _ F]. subst. inversion F as [|? ? L _]. subst. unfold bl_le in L. rewrite <- B1, <- B2 in L. simpl in L. lia.
Qed.
(** A uv range gives a new data set with exactly the rows whose distance, at the central channel, is within the limits
    (whichever of the two comes first), in their order. *)
Lemma C58_uv_range_proof : forall (PC : Type) h (v : vds PC) names t lo hi, shows h v names t ->
  v_freq v <> [] -> Forall (fun r => length (r_uvw r) = length (v_freq v)) t ->
  exists h' c t', get_uv_range h v lo hi = (h', Ok c) /\ shows h' c names t' /\ same_rest v c /\ shows h' v names t /\ separate v c /\
    rows_with (fun r => uv_within (length (v_freq v) / 2) lo hi r \/ uv_within (length (v_freq v) / 2) hi lo r) t t'.
Proof.
  intros PC h v names t lo hi S NF CH. destruct (get_uv_range_ok h v names t lo hi S NF CH) as (h' & c & t' & E & S' & R & F & G & W).
  exists h', c, t'. pose proof (grows_shows _ _ _ _ _ G S). pose proof (fresh_separate _ _ _ _ _ F S). tauto.
Qed.
Lemma C58_uv_range_example_proof : Forall (fun r => length (r_uvw r) = length (v_freq ex_v)) ex_table /\
  uv_within 0 (Lim 2) (Lim 6) ex_row2 /\ ~ uv_within 0 (Lim 2) (Lim 6) ex_row1.
Proof.
  split; [repeat constructor|]. split.
  - exists 3%Q, 4%Q, 0%Q. split; [reflexivity|]. split; [right; discriminate|]. intros [X|X]; [vm_compute in X; congruence|vm_compute in X; congruence].
  - intros (x & y & z & E & [A|A] & _); simpl in E; inversion E; subst; vm_compute in A; congruence.
Qed.
(** An antenna selection by positions keeps exactly the rows both of whose antennas are selected, in their order:
    include wins over exclude. *)
Lemma C58_antenna_subset_proof : forall (PC : Type) h (v : vds PC) names t inc exc i e stands, shows h v names t ->
  read_include inc = Ok i -> read_exclude exc = Ok e -> v_aa v = Some stands ->
  exists h' c t', get_antenna_subset h v inc exc true = (h', Ok c) /\ shows h' c names t' /\ same_rest v c /\ shows h' v names t /\ separate v c /\
    rows_with (fun r => kept (Z.of_nat (length stands)) i e (fst (r_bl r)) /\ kept (Z.of_nat (length stands)) i e (snd (r_bl r))) t t'.
Proof.
  intros PC h v names t inc exc i e stands S RI RE AA.
  destruct (get_antenna_subset_ok h v names t inc exc true i e stands S RI RE AA) as (h' & c & t' & E & S' & R & F & G & W).
  exists h', c, t'. pose proof (grows_shows _ _ _ _ _ G S). pose proof (fresh_separate _ _ _ _ _ F S). tauto.
Qed.
Lemma C58_antenna_subset_example_proof : shows ex_h ex_v ex_names ex_table /\ read_include (AList [1; 2]) = Ok (Some [1; 2]) /\ read_exclude (AInt 2) = Ok [2] /\ v_aa ex_v = Some [10; 20; 30] /\
  kept 3 (Some [1; 2]) [2] 2 /\ ~ kept 3 (Some [1; 2]) [2] 0 /\ ~ kept 3 None [2] 2.
Proof. split; [exact ex_ok|]. repeat split; simpl; intuition lia. Qed.
(** The same by stand numbers: each stand is the first antenna at that stand; unknown stands are ignored. *)
Lemma C58_antenna_stands_proof : forall (PC : Type) h (v : vds PC) names t inc exc i e stands, shows h v names t ->
  read_include inc = Ok i -> read_exclude exc = Ok e -> v_aa v = Some stands ->
  exists h' c t' i' e', get_antenna_subset h v inc exc false = (h', Ok c) /\ shows h' c names t' /\ same_rest v c /\ shows h' v names t /\ separate v c /\
    match i, i' with Some l, Some l' => at_stands stands l l' | None, None => True | _, _ => False end /\ at_stands stands e e' /\
    rows_with (fun r => kept (Z.of_nat (length stands)) i' e' (fst (r_bl r)) /\ kept (Z.of_nat (length stands)) i' e' (snd (r_bl r))) t t'.
Proof.
  intros PC h v names t inc exc i e stands S RI RE AA.
  destruct (get_antenna_subset_ok h v names t inc exc false i e stands S RI RE AA) as (h' & c & t' & E & S' & R & F & G & W).
  exists h', c, t', (option_map (to_indices stands) i), (to_indices stands e).
  pose proof (grows_shows _ _ _ _ _ G S) as G1. pose proof (fresh_separate _ _ _ _ _ F S) as (_ & G2).
  split; [auto|]. split; [auto|]. split; [auto|]. split; [auto|]. split; [auto|]. split; [destruct i; simpl; auto; apply to_indices_spec|].
  split; [apply to_indices_spec|exact W].
Qed.
Lemma C58_antenna_stands_example_proof : at_stands [10; 20; 30] [30; 99] [2].
Proof.
  intro a. split.
  - intros [<-|[]]. exists 30. split; [left; auto|]. split; [lia|]. split; [reflexivity|]. intros b B. assert (b = 0 \/ b = 1) as [-> | ->] by lia; discriminate.
  - intros (s & [<-|[<-|[]]] & A & E & _).
    + left. pose proof (nth_error_lt _ _ _ _ E) as LT. simpl length in LT.
      assert (a = 0 \/ a = 1 \/ a = 2) as [-> |[-> | ->]] by lia; auto; discriminate.
    + pose proof (nth_error_lt _ _ _ _ E) as LT. simpl length in LT.
      assert (a = 0 \/ a = 1 \/ a = 2) as [-> |[-> | ->]] by lia; discriminate.
Qed.
(** What is not an accepted way to write a selection is a TypeError and makes nothing. *)
Lemma C58_antenna_bad_argument_proof : forall (PC : Type) h (v : vds PC) inc exc ind,
  (exists s, inc = AStr s /\ s <> "all"%string) \/ (exists n, inc = AInt n) \/ (exists s, exc = AStr s /\ s <> "none"%string) ->
  get_antenna_subset h v inc exc ind = (h, Raise TypeError).
Proof.
  intros PC h v inc exc ind H. unfold get_antenna_subset. destruct H as [(s & -> & N)|[(n & ->)|(s & -> & N)]].
  - simpl. destruct (String.eqb_spec s "all"); [congruence|reflexivity].
  - reflexivity.
  - simpl. destruct (String.eqb_spec s "none"); [congruence|]. destruct inc as [|s'| |]; simpl in *; try reflexivity.
    destruct (String.eqb s' "all"); reflexivity.
Qed.
(** Appending a polarization adds a cell to every row; one with a name that is there replaces its cells; one with
    another number of rows is a RuntimeError. *)
Lemma C58_append_new_proof : forall (PC : Type) h (v : vds PC) names t n cells, shows h v names t -> length cells = length t ->
  upper n = n -> ~ In n names ->
  let (h', r) := new_pol h (pol_of n cells) in
  exists v', append h' v r = Ok v' /\ shows h' v' (names ++ [n]) (map add_cell (combine t cells)) /\ same_rest v v'.
Proof. intros PC. exact append_new. Qed.
Lemma C58_append_replaces_proof : forall (PC : Type) h (v : vds PC) names t n k cells, shows h v names t -> length cells = length t ->
  nth_error names k = Some n ->
  let (h', r) := new_pol h (pol_of n cells) in
  exists v', append h' v r = Ok v' /\ shows h' v' names (map (put_cell k) (combine t cells)) /\ same_rest v v'.
Proof. intros PC. exact append_old. Qed.
Lemma C58_append_mismatch_proof : forall (PC : Type) h (v : vds PC) names t p, shows h v names t -> length (p_data p) <> length t ->
  let (h', r) := new_pol h p in append h' v r = Raise RuntimeError.
Proof. intros PC. exact append_mismatch. Qed.
Lemma C58_append_example_proof : shows ex_h ex_v ex_names ex_table /\ length [ex_cell 5 true; ex_cell 6 true] = length ex_table /\ upper "XY" = "XY"%string /\ ~ In "XY"%string ex_names /\
  map (fun r => length (r_cells r)) (map add_cell (combine ex_table [ex_cell 5 true; ex_cell 6 true])) = [3; 3]%nat.
Proof. split; [exact ex_ok|]. repeat split. simpl. intuition discriminate. Qed.
(** REFUTED: only the rows of the data are counted: weights and masks of another size are accepted. *)
Lemma C58_append_weights_refuted_proof : exists h (v : vds Z) names t p, shows h v names t /\
  (let (h', r) := new_pol h p in exists v', append h' v r = Ok v' /\ forall names' t', ~ shows h' v' names' t').
Proof.
  exists ex_h, ex_v, ex_names, ex_table, (mkP "XY"%string [[]; []] [] []). split; [exact ex_ok|].
  destruct (new_pol ex_h (mkP "XY"%string [[]; []] [] [])) as [h' r] eqn:E. vm_compute in E. inversion E. subst r. clear E.
  eexists. split; [unfold append; cbv; reflexivity|]. intros names' t' S.
  assert (K : nth_error [("XX"%string, 0%nat); ("YY"%string, 1%nat); ("XY"%string, 2%nat)] 2 = Some ("XY"%string, 2%nat)) by reflexivity.
  destruct (shows_col _ _ _ _ _ _ _ S K) as (_ & C1). vm_compute in C1. inversion C1 as [[E1 E2 E3]].
  destruct t'; [|discriminate]. discriminate.
Qed.

(** ** Copies *)
(** A copy shows the same table, and whatever is then done to one of the two (sorting, rephasing, appending, in any
    number and order, with or without errors) leaves the other as it was. *)
Lemma C59_copy_independent_proof : forall (PC : Type) h (v : vds PC) names t, shows h v names t ->
  exists h' c, copy h v true = (h', Ok c) /\ shows h' c names t /\ same_rest v c /\
    forall A ops, shows (fst (do_ops A (h', c) ops)) v names t /\ shows (fst (do_ops A (h', v) ops)) c names t.
Proof.
  intros PC h v names t S. destruct (copy_ok h v names t S) as (h' & c & E & S' & R & F & G). exists h', c.
  pose proof (fresh_separate _ _ _ _ _ F S) as (S1 & S2). pose proof (grows_shows _ _ _ _ _ G S) as G1.
  split; [auto|]. split; [auto|]. split; [auto|]. intros A ops. split; apply do_ops_other; auto.
Qed.
Lemma C59_copy_example_proof : shows ex_h ex_v ex_names ex_table /\ fst (copy ex_h ex_v true) <> ex_h.
Proof. split; [exact ex_ok|]. intro X. apply (f_equal (fun h => length (hp h))) in X. discriminate X. Qed.
(** A selection or a copy without polarizations is independent of the original in the same way. *)
Lemma C59_bare_copy_independent_proof : forall (PC : Type) h (v : vds PC) names t, shows h v names t ->
  exists h' c, copy h v false = (h', Ok c) /\ v_bl c = map r_bl t /\ nth_error (ha h') (v_uvw c) = Some (map r_uvw t) /\ v_pols c = [] /\ same_rest v c /\
    forall A ops, shows (fst (do_ops A (h', c) ops)) v names t.
Proof.
  intros PC h v names t S. destruct (copy_bare_ok h v names t S) as (h' & c & E & B & U & P & R & F & G). exists h', c.
  pose proof (fresh_separate _ _ _ _ _ F S) as (S1 & S2). pose proof (grows_shows _ _ _ _ _ G S) as G1.
  split; [auto|]. split; [destruct S as (X & _); congruence|]. split; [auto|]. split; [auto|]. split; [auto|]. intros A ops. apply do_ops_other; auto.
Qed.
Lemma C59_selection_independent_proof : forall (PC : Type) h (v c : vds PC) names t names' t' A ops,
  shows h v names t -> shows h c names' t' -> separate v c ->
  shows (fst (do_ops A (h, c) ops)) v names t /\ shows (fst (do_ops A (h, v) ops)) c names' t'.
Proof.
  intros PC h v c names t names' t' A ops S S' SP. split; apply do_ops_other; auto. apply separate_sym. auto.
Qed.

(** ** Several integrations *)
(** Whatever data sets are appended: no two integrations of the same date, and all with the number of baselines,
    channels and polarizations of the first (where that is not zero). *)
Lemma C60_append_proof : forall (PC : Type) (vs : list (vds PC)),
  different_dates (appended vs) /\ (forall v, In v (appended vs) -> In v vs) /\
  forall w l, appended vs = w :: l -> Forall (fun v =>
    (v_bl w <> [] -> length (v_bl v) = length (v_bl w)) /\ (v_freq w <> [] -> length (v_freq v) = length (v_freq w)) /\
    (v_pols w <> [] -> length (v_pols v) = length (v_pols w))) l.
Proof.
  intros PC vs. destruct (appended_inv vs) as (D & I & U). split; [auto|]. split; [auto|]. intros w l E. specialize (U w l E). inversion U as [|? ? _ F]. subst.
  eapply Forall_impl; [|exact F]. intros v (H1 & H2 & H3). unfold nbaseline, nchan, npol, zlen in *.
  repeat split; intro N; [apply Nat2Z.inj, H1; destruct (v_bl w)|apply Nat2Z.inj, H2; destruct (v_freq w)|apply Nat2Z.inj, H3; destruct (v_pols w)]; simpl; congruence || lia.
Qed.
Lemma C60_append_example_proof : appended [ex_set 1 0 0 ex_table; ex_set 1 1 2 ex_table; ex_set 2 1 2 [ex_row1]; ex_set 3 1 2 ex_table] =
  [ex_set 1 0 0 ex_table; ex_set 3 1 2 ex_table].
Proof. vm_compute. reflexivity. Qed.
(** Copying, and sorting by date and baseline, of a VisibilityData whose data sets share no object. *)
Lemma C60_copy_proof : forall (PC : Type) h (its : list (@item PC)) nb, all_show h its -> different_dates (sets its) -> uniform its ->
  Forall (fun x => length (shown_rows x) = nb) its ->
  exists h' its', vd_copy h (sets its) true = (h', Ok (sets its')) /\ all_show h' its' /\ all_show h' its /\
    Forall2 (other_rows (fun _ t t' => t' = t)) its its' /\ apart (sets its').
Proof.
  intros PC h its nb SH DD (np & nc & UN) NB. unfold vd_copy.
  destruct (vd_each_ok (fun h v => copy h v true) (fun _ t t' => t' = t) its nb np nc) with (h := h) as (h' & its' & E & S & F & G & FR & A); auto.
  - intros h0 x I S. destruct (copy_ok _ _ _ _ S) as (h' & c & X1 & X2 & X3 & X4 & X5). exists h', c, (shown_rows x). tauto.
  - rewrite Forall_forall in *. intros x I. destruct (UN x I) as (U1 & U2). split; [auto|]. split; [auto|]. intros t' ->. auto.
  - exists h', its'. repeat split; auto. eapply Forall_impl; [|exact SH]. simpl. intros x X. eapply grows_shows; eauto.
Qed.
Lemma C60_sort_proof : forall (PC : Type) h (its : list (@item PC)), all_show h its -> apart (sets its) ->
  Forall (fun x => antennas_below 4096 (shown_rows x)) its ->
  exists h' by_date its', vd_sort h (sets its) = (h', sets its', Ok tt) /\ all_show h' its' /\
    Permutation its by_date /\ StronglySorted (fun x y => (v_jd (fst x) <= v_jd (fst y))%Q) by_date /\
    Forall2 (other_rows (fun _ => sorted_rows)) by_date its'.
Proof. intros PC. exact vd_sort_ok. Qed.
Definition ex_its : list (@item Z) := [(ex_set 2 0 0 ex_table, (ex_names, ex_table)); (ex_set 1 1 2 [ex_row2; ex_row1], (ex_names, [ex_row2; ex_row1]))].
Definition ex_h2 : heap := ex_heap [ex_table; [ex_row2; ex_row1]].
Lemma ex_all_show : all_show ex_h2 ex_its.
Proof. repeat (apply Forall_cons; [|]); [apply (ex_shows 2 [] ex_table [[ex_row2; ex_row1]]); repeat constructor|apply (ex_shows 1 [ex_table] [ex_row2; ex_row1] []); repeat constructor|apply Forall_nil]. Qed.
Lemma ex_apart : apart (sets ex_its).
Proof.
  constructor; [|constructor; [constructor|constructor]]. constructor; [|constructor]. split; [discriminate|]. intros n r m I J. simpl in *.
  repeat (destruct I as [I|I]; [|]); repeat (destruct J as [J|J]; [|]); congruence || tauto.
Qed.
Lemma ex_dates : different_dates (sets ex_its).
Proof. constructor; [|constructor; [constructor|constructor]]. constructor; [|constructor]. simpl. discriminate. Qed.
Lemma C60_sort_example_proof : all_show ex_h2 ex_its /\ apart (sets ex_its) /\ different_dates (sets ex_its) /\ uniform ex_its /\
  Forall (fun x => antennas_below 4096 (shown_rows x)) ex_its /\ map (fun v => (v_jd v, v_bl v)) (snd (fst (vd_sort ex_h2 (sets ex_its)))) = [(1%Q, [(0, 2); (1, 2)]); (2%Q, [(0, 2); (1, 2)])].
Proof.
  split; [exact ex_all_show|]. split; [exact ex_apart|]. split; [exact ex_dates|]. split; [exists 2%nat, 1%nat; repeat constructor|].
  split; [repeat constructor; simpl; lia|]. vm_compute. reflexivity.
Qed.
(** A uv range of all integrations, where each of them keeps the same number of baselines. *)
Lemma C60_uv_range_partial_proof : forall (PC : Type) h (its : list (@item PC)) nb lo hi, all_show h its -> different_dates (sets its) -> uniform its ->
  Forall (fun x => v_freq (fst x) <> [] /\ Forall (fun r => length (r_uvw r) = length (v_freq (fst x))) (shown_rows x) /\
    forall t', rows_with (fun r => uv_within (length (v_freq (fst x)) / 2) lo hi r \/ uv_within (length (v_freq (fst x)) / 2) hi lo r) (shown_rows x) t' -> length t' = nb) its ->
  exists h' its', vd_get_uv_range h (sets its) lo hi = (h', Ok (sets its')) /\ all_show h' its' /\ all_show h' its /\ apart (sets its') /\
    Forall2 (other_rows (fun v => rows_with (fun r => uv_within (length (v_freq v) / 2) lo hi r \/ uv_within (length (v_freq v) / 2) hi lo r))) its its'.
Proof.
  intros PC h its nb lo hi SH DD (np & nc & UN) NB. unfold vd_get_uv_range.
  destruct (vd_each_ok (fun h v => get_uv_range h v lo hi) (fun v => rows_with (fun r => uv_within (length (v_freq v) / 2) lo hi r \/ uv_within (length (v_freq v) / 2) hi lo r)) its nb np nc)
    with (h := h) as (h' & its' & E & S & F & G & FR & A); auto.
  - intros h0 x I S. rewrite Forall_forall in NB. destruct (NB x I) as (NF & CH & _).
    apply (get_uv_range_ok h0 (fst x) (shown_names x) (shown_rows x) lo hi S NF CH).
  - rewrite Forall_forall in *. intros x I. destruct (UN x I) as (U1 & U2). destruct (NB x I) as (_ & _ & NX). auto.
  - exists h', its'. repeat split; auto. eapply Forall_impl; [|exact SH]. simpl. intros x X. eapply grows_shows; eauto.
Qed.
(** An antenna selection of all integrations, by positions, where each of them keeps the same number of baselines. *)
Lemma C60_antenna_subset_partial_proof : forall (PC : Type) h (its : list (@item PC)) nb inc exc i e stands, all_show h its -> different_dates (sets its) -> uniform its ->
  read_include inc = Ok i -> read_exclude exc = Ok e ->
  Forall (fun x => v_aa (fst x) = Some stands /\
    forall t', rows_with (fun r => kept (Z.of_nat (length stands)) i e (fst (r_bl r)) /\ kept (Z.of_nat (length stands)) i e (snd (r_bl r))) (shown_rows x) t' -> length t' = nb) its ->
  exists h' its', vd_get_antenna_subset h (sets its) inc exc true = (h', Ok (sets its')) /\ all_show h' its' /\ all_show h' its /\ apart (sets its') /\
    Forall2 (other_rows (fun _ => rows_with (fun r => kept (Z.of_nat (length stands)) i e (fst (r_bl r)) /\ kept (Z.of_nat (length stands)) i e (snd (r_bl r))))) its its'.
Proof.
  intros PC h its nb inc exc i e stands SH DD (np & nc & UN) RI RE NB. unfold vd_get_antenna_subset.
  destruct (vd_each_ok (fun h v => get_antenna_subset h v inc exc true) (fun _ => rows_with (fun r => kept (Z.of_nat (length stands)) i e (fst (r_bl r)) /\ kept (Z.of_nat (length stands)) i e (snd (r_bl r)))) its nb np nc)
    with (h := h) as (h' & its' & E & S & F & G & FR & A); auto.
  - intros h0 x I S. rewrite Forall_forall in NB. destruct (NB x I) as (AA & _).
    exact (get_antenna_subset_ok h0 (fst x) (shown_names x) (shown_rows x) inc exc true i e stands S RI RE AA).
  - rewrite Forall_forall in *. intros x I. destruct (UN x I) as (U1 & U2). destruct (NB x I) as (_ & NX). auto.
  - exists h', its'. repeat split; auto. eapply Forall_impl; [|exact SH]. simpl. intros x X. eapply grows_shows; eauto.
Qed.
Lemma C60_antenna_subset_example_proof : all_show ex_h2 ex_its /\ Forall (fun x => v_aa (fst x) = Some [10; 20; 30] /\
    forall t', rows_with (fun r => kept 3 (Some [1; 2]) [] (fst (r_bl r)) /\ kept 3 (Some [1; 2]) [] (snd (r_bl r))) (shown_rows x) t' -> length t' = 1%nat) ex_its.
Proof.
  split; [exact ex_all_show|].
  assert (K1 : kept 3 (Some [1; 2]) [] (fst (r_bl ex_row1)) /\ kept 3 (Some [1; 2]) [] (snd (r_bl ex_row1))) by (simpl; auto).
  assert (K2 : ~ (kept 3 (Some [1; 2]) [] (fst (r_bl ex_row2)) /\ kept 3 (Some [1; 2]) [] (snd (r_bl ex_row2)))) by (simpl; intuition lia).
  repeat (apply Forall_cons; [split; [reflexivity|]|]); [| |apply Forall_nil]; unfold shown_rows; cbn [fst snd]; intros t' W;
    unfold ex_table in W; repeat match goal with W : rows_with _ (_ :: _) _ |- _ => inversion W; clear W; subst | W : rows_with _ [] _ |- _ => inversion W; clear W; subst end;
    try (exfalso; tauto); reflexivity.
Qed.
(** REFUTED: in a uv range whose integrations keep different numbers of baselines (the Earth turns) the second is rejected. *)
Lemma C60_uv_range_refuted_proof : exists h (its : list (@item Z)) lo hi, all_show h its /\ different_dates (sets its) /\ uniform its /\
  snd (vd_get_uv_range h (sets its) lo hi) = Raise ValueError.
Proof.
  set (t := [mkR (0, 2) [(3, 0, 0)%Q] [ex_cell 1 false; ex_cell 2 false]; mkR (1, 2) [(4, 0, 0)%Q] [ex_cell 1 false; ex_cell 2 false]]).
  exists (ex_heap [ex_table; t]), [(ex_set 1 0 0 ex_table, (ex_names, ex_table)); (ex_set 2 1 2 t, (ex_names, t))], (Lim 2), (Lim 6).
  split; [repeat (apply Forall_cons; [|]); [apply (ex_shows 1 [] ex_table [t]); repeat constructor|apply (ex_shows 2 [ex_table] t []); repeat constructor|apply Forall_nil]|].
  split; [constructor; [|constructor; [constructor|constructor]]; constructor; [|constructor]; simpl; discriminate|].
  split; [exists 2%nat, 1%nat; repeat constructor|]. vm_compute. reflexivity.
Qed.
(** REFUTED: a selection by stand numbers is taken as one by positions. *)
Lemma C60_antenna_stands_refuted_proof : (forall (PC : Type) h (l : vdata PC) inc exc,
    vd_get_antenna_subset h l inc exc false = vd_get_antenna_subset h l inc exc true) /\
  exists h (v : vds Z) names t, shows h v names t /\
    match get_antenna_subset h v (AList [20; 30]) ANone false, vd_get_antenna_subset h [v] (AList [20; 30]) ANone false with
    | (_, Ok c), (_, Ok [c']) => v_bl c = [(1, 2)] /\ v_bl c' = []
    | _, _ => False
    end.
Proof.
  split; [reflexivity|]. exists ex_h, ex_v, ex_names, ex_table. split; [exact ex_ok|]. vm_compute. split; reflexivity.
Qed.
(** REFUTED: extend() takes data sets that append() rejects; copying the result is then an error. *)
Lemma C60_extend_refuted_proof : exists h (v w : vds Z) names t, shows h v names t /\ shows h w names t /\
  vd_append [v] w = Raise ValueError /\ snd (vd_copy h (vd_extend [v] [w]) true) = Raise ValueError.
Proof. exists ex_h, ex_v, ex_v, ex_names, ex_table. split; [exact ex_ok|]. split; [exact ex_ok|]. split; vm_compute; reflexivity. Qed.
(** REFUTED: after a first integration without baselines anything is accepted. *)
Lemma C60_append_after_empty_refuted_proof : exists vs : list (vds Z), map (fun v => length (v_bl v)) (appended vs) = [0; 1; 2]%nat.
Proof. exists [ex_set 1 0 0 []; ex_set 2 0 0 [ex_row1]; ex_set 3 0 0 ex_table]. vm_compute. reflexivity. Qed.

(** ** Phase centers *)
(** Moving the phase center gives every row the uvw coordinates of the new center and its visibilities rotated to it. *)
Lemma C64_rephase_proof : forall (PC : Type) (A : aipy PC) up h v names t old new aa,
  sound_aipy A up -> shows h v names t -> v_pc v = Some old -> v_aa v = Some aa ->
  up (v_jd v) aa old = true -> up (v_jd v) aa new = true -> names <> [] ->
  exists h' v' t', rephase A h v new = (h', v', Ok tt) /\ shows h' v' names t' /\ v_pc v' = Some new /\
    v_jd v' = v_jd v /\ v_freq v' = v_freq v /\ v_aa v' = v_aa v /\ v_extra v' = v_extra v /\
    Forall2 (moved A (v_jd v) aa old new) t t'.
Proof. intros PC. exact rephase_ok. Qed.
(** There and back again: the visibilities, weights, masks, baselines and phase center are what they were, and the uvw
    coordinates those of the old center. *)
Lemma C64_there_and_back_proof : forall (PC : Type) (A : aipy PC) up h v names t old new aa,
  sound_aipy A up -> shows h v names t -> v_pc v = Some old -> v_aa v = Some aa ->
  up (v_jd v) aa old = true -> up (v_jd v) aa new = true -> names <> [] ->
  exists h1 v1 h2 v2 t2, rephase A h v new = (h1, v1, Ok tt) /\ rephase A h1 v1 old = (h2, v2, Ok tt) /\
    shows h2 v2 names t2 /\ same_rest v v2 /\
    Forall2 (fun r r2 => r_bl r2 = r_bl r /\ r_cells r2 = r_cells r /\ gen_uvw A (v_jd v) aa old (snd (r_bl r), fst (r_bl r)) = Some (r_uvw r2)) t t2.
Proof.
  intros PC A up h v names t old new aa SA S P AA U1 U2 NN.
  destruct (rephase_ok A up h v names t old new aa SA S P AA U1 U2 NN) as (h1 & v1 & t1 & E1 & S1 & P1 & J1 & F1 & A1 & X1 & M1).
  destruct (rephase_ok A up h1 v1 names t1 new old aa SA S1 P1) as (h2 & v2 & t2 & E2 & S2 & P2 & J2 & F2 & A2 & X2 & M2); try congruence.
  exists h1, v1, h2, v2, t2. split; [auto|]. split; [auto|]. split; [auto|]. split; [unfold same_rest; repeat split; congruence|].
  rewrite J1 in M2. clear - M1 M2 SA. revert t2 M2. induction M1 as [|r r1 t t1 A1 M1 IH]; intros t2 M2; inversion M2; subst; constructor; auto.
  eapply moved_back; eauto.
Qed.
(** A center below the horizon is a RuntimeError that changes nothing. *)
Lemma C64_below_horizon_proof : forall (PC : Type) (A : aipy PC) up h v names t old new aa,
  sound_aipy A up -> shows h v names t -> v_pc v = Some old -> v_aa v = Some aa ->
  up (v_jd v) aa old = false \/ up (v_jd v) aa new = false -> names <> [] -> t <> [] ->
  rephase A h v new = (h, v, Raise RuntimeError).
Proof. intros PC. exact rephase_down. Qed.
(** An AIPY for the examples: source 1 is not up on day 2, phasing adds nothing. *)
Definition ex_up (jd : Q) (_ : list Z) (c : Z) : bool := negb (Qeq_bool jd 2 && (c =? 1)).
Definition ex_aipy : aipy Z := mkA (fun jd aa c b => if ex_up jd aa c then Some [(inject_Z c, 0, 0)%Q] else None)
  (fun jd aa c b x => if ex_up jd aa c then Some x else None) (fun jd aa c b x => if ex_up jd aa c then Some x else None).
Lemma C64_rephase_example_proof : sound_aipy ex_aipy ex_up /\ shows ex_h ex_v ex_names ex_table /\ v_pc ex_v = Some 0 /\ ex_up (v_jd ex_v) [10; 20; 30] 1 = true /\ ex_up 2 [10; 20; 30] 1 = false /\
  snd (rephase ex_aipy ex_h ex_v 1) = Ok tt /\ snd (rephase ex_aipy ex_h (ex_set 2 0 0 ex_table) 1) = Raise RuntimeError.
Proof.
  split.
  - constructor; intros; simpl; destruct (ex_up jd aa c); split; intro H; congruence || discriminate || (inversion H; auto).
  - split; [exact ex_ok|]. repeat split.
Qed.
(** All integrations: with ignore_errors, those whose centers are both up are moved and the others are left exactly as
    they were; without, all of them are moved, if they can be. *)
Lemma C64_integrations_proof : forall (PC : Type) (A : aipy PC) up new ign h its, sound_aipy A up -> all_show h its -> apart (sets its) ->
  Forall (fun x => shown_names x <> [] /\ shown_rows x <> [] /\ exists old aa, v_pc (fst x) = Some old /\ v_aa (fst x) = Some aa /\
    (ign = true \/ (up (v_jd (fst x)) aa old = true /\ up (v_jd (fst x)) aa new = true))) its ->
  exists h' its', vd_rephase A new ign h (sets its) = (h', sets its', Ok tt) /\ all_show h' its' /\
    Forall2 (fun x y => exists old aa, v_pc (fst x) = Some old /\ v_aa (fst x) = Some aa /\
      if up (v_jd (fst x)) aa old && up (v_jd (fst x)) aa new
      then v_pc (fst y) = Some new /\ v_jd (fst y) = v_jd (fst x) /\ shown_names y = shown_names x /\
           Forall2 (moved A (v_jd (fst x)) aa old new) (shown_rows x) (shown_rows y)
      else y = x) its its'.
Proof.
  intros PC A up new ign h its SA SH AP HY. destruct (vd_rephase_ok A up new ign h its SA SH AP HY) as (h' & its' & E & S & F).
  exists h', its'. split; [auto|]. split; [auto|]. clear - F. induction F as [|x y a b (old & aa & P1 & P2 & R) F IH]; constructor; auto.
  exists old, aa. split; [auto|]. split; [auto|]. destruct (up (v_jd (fst x)) aa old && up (v_jd (fst x)) aa new); auto.
  destruct R as (J & _ & _ & _ & P & N & o & q & O1 & O2 & M). rewrite P1 in O1. rewrite P2 in O2. inversion O1. inversion O2. subst. auto.
Qed.
Lemma C64_integrations_example_proof : all_show ex_h2 ex_its /\ apart (sets ex_its) /\
  map v_pc (snd (fst (vd_rephase ex_aipy 1 true ex_h2 (sets ex_its)))) = [Some 0; Some 1].
Proof. split; [exact ex_all_show|]. split; [exact ex_apart|]. vm_compute. reflexivity. Qed.
(** REFUTED: without ignore_errors an integration that cannot be moved stops the call, and those before it stay moved. *)
Lemma C64_integrations_atomic_refuted_proof : exists (A : aipy Z) up h its h' l', sound_aipy A up /\ all_show h its /\ apart (sets its) /\
  vd_rephase A 1 false h (sets its) = (h', l', Raise RuntimeError) /\ map v_pc (sets its) = [Some 0; Some 0] /\ map v_pc l' = [Some 1; Some 0].
Proof.
  exists ex_aipy, ex_up, ex_h2, (rev ex_its). destruct (vd_rephase ex_aipy 1 false ex_h2 (sets (rev ex_its))) as [[h' l'] o] eqn:E. exists h', l'.
  split; [apply C64_rephase_example_proof|]. split; [apply Forall_rev, ex_all_show|].
  split; [constructor; [|constructor; [constructor|constructor]]; constructor; [|constructor]; apply separate_sym;
    pose proof ex_apart as X; inversion X as [|? ? Y _]; inversion Y; auto|].
  vm_compute in E. inversion E. repeat split; reflexivity.
Qed.
(** REFUTED: of a data set without polarizations only the phase center is changed: the uvw coordinates are those of the old one. *)
Lemma C64_no_polarizations_refuted_proof : forall (PC : Type) (A : aipy PC) h v old new aa, v_pc v = Some old -> v_aa v = Some aa -> v_pols v = [] ->
  rephase A h v new = (h, with_pc v new, Ok tt).
Proof. intros PC A h v old new aa P AA N. unfold rephase. rewrite P, AA, N. reflexivity. Qed.
