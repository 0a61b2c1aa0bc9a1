(** The changes of polarization basis as tables of products. *)
From Coq Require Import String List ZArith QArith Qcanon Bool Lia.
From Verif Require Import M_Vis M_VisPol S_Vis S_VisPol P_Base P_Vis P_Vis2 P_Vis3 P_VisPol P_VisPol2.
Import ListNotations.
Open Scope Z_scope.

Lemma mean_spec : mean = fun x y => ((x + y) / (1 + 1))%Qc.
Proof. reflexivity. Qed.

Lemma combine_joined : forall f c d, combine_cells f c d = cell_like (zipw f (fst (fst c)) (fst (fst d))) (joined c d).
Proof. reflexivity. Qed.

Definition table_of (jobs : list job) : list product :=
  flat_map (fun j : job => let '(a, b, outs) := j in map (fun nf => (fst nf, (a, b), snd nf)) outs) jobs.

Lemma cell_named_index : forall names r n c, NoDup names -> length (r_cells r) = length names ->
  (cell_named names r n c <-> exists k, index_of names n = Some k /\ c = cell_at k r).
Proof.
  intros names r n c D L. split.
  - intros (k & N & E). exists k. split; [apply index_of_unique; auto|]. symmetry. apply nth_error_nth. auto.
  - intros (k & N & ->). apply index_of_nth in N. exists k. split; auto. unfold cell_at. apply nth_error_nth'.
    rewrite L. eapply nth_error_lt; eauto.
Qed.

Lemma build_named : forall outs r n c, cell_named (map fst outs) (build outs r) n c <-> exists g, In (n, g) outs /\ c = g r.
Proof.
  intros outs r n c. split.
  - intros (k & N & E). simpl in E. rewrite nth_error_map in N, E. destruct (nth_error outs k) as [[m g]|] eqn:X; [|discriminate].
    simpl in *. inversion N. inversion E. subst. exists g. split; auto. eapply nth_error_In; eauto.
  - intros (g & I & ->). apply In_nth_error in I. destruct I as (k & I). exists k. simpl. rewrite !nth_error_map, I. auto.
Qed.

Lemma build_made : forall names jobs r, NoDup names -> length (r_cells r) = length names ->
  made (table_of jobs) names r (map fst (flat_map (outs_of names) jobs)) (build (flat_map (outs_of names) jobs) r).
Proof.
  intros names jobs r D L. split; [reflexivity|]. split; [reflexivity|]. intros n c. rewrite build_named. split.
  - intros (g & I & ->). apply in_flat_map in I. destruct I as ([[a b] outs] & J & I). unfold outs_of in I.
    destruct (index_of names a) as [i|] eqn:Ea; [|destruct I]. destruct (index_of names b) as [k|] eqn:Eb; [|destruct I].
    apply in_map_iff in I. destruct I as ([m f] & E & I). inversion E. subst.
    exists a, b, f, (cell_at i r), (cell_at k r). split; [|split; [|split]].
    + apply in_flat_map. exists (a, b, outs). split; auto. apply in_map_iff. exists (n, f). auto.
    + apply cell_named_index; auto. eauto.
    + apply cell_named_index; auto. eauto.
    + reflexivity.
  - intros (a & b & f & ca & cb & I & Ha & Hb & ->). apply in_flat_map in I. destruct I as ([[a' b'] outs] & J & I).
    apply in_map_iff in I. destruct I as ([m g] & E & I). inversion E. subst.
    apply cell_named_index in Ha; auto. apply cell_named_index in Hb; auto. destruct Ha as (i & Ea & ->). destruct Hb as (k & Eb & ->).
    eexists. split.
    + apply in_flat_map. exists (a, b, outs). split; auto. unfold outs_of. rewrite Ea, Eb. apply in_map_iff. exists (n, f). simpl. split; [reflexivity|auto].
    + reflexivity.
Qed.

Lemma regular_same : forall names t i k r, regular t -> Forall (fun r => length (r_cells r) = length (names : list string)) t ->
  In r t -> (i < length names)%nat -> (k < length names)%nat -> same_size (cell_at i r) (cell_at k r).
Proof.
  intros names t i k r R L I Hi Hk. unfold regular in R. rewrite Forall_forall in R, L. destruct (R r I) as (n & F).
  rewrite Forall_forall in F.
  assert (A : forall j, (j < length names)%nat -> In (cell_at j r) (r_cells r)) by (intros j Hj; apply nth_In; rewrite L; auto).
  pose proof (F _ (A i Hi)) as (X1 & X2 & X3). pose proof (F _ (A k Hk)) as (Y1 & Y2 & Y3).
  unfold same_size. repeat split; congruence.
Qed.

Lemma zipw_length : forall A B D (f : A -> B -> D) a b n, length a = n -> length b = n -> length (zipw f a b) = n.
Proof. intros. unfold zipw. rewrite map_length, combine_length. lia. Qed.

Lemma made_regular : forall tab names r names' r', made tab names r names' r' -> length (r_cells r') = length names' ->
  regular [r] -> regular [r'].
Proof.
  intros tab names r names' r' (_ & _ & M) L R. inversion R as [|? ? (n & F) _]. subst. constructor; [|constructor].
  exists n. apply Forall_forall. intros c I. apply In_nth_error in I. destruct I as (k & E).
  assert (K : (k < length names')%nat) by (rewrite <- L; eapply nth_error_lt; eauto).
  destruct (nth_error names' k) as [m|] eqn:N; [|apply nth_error_None in N; lia].
  assert (X : cell_named names' r' m c) by (exists k; auto). apply M in X.
  destruct X as (a & b & f & ca & cb & _ & (ka & _ & Ea) & (kb & _ & Eb) & ->).
  rewrite Forall_forall in F. pose proof (F _ (nth_error_In _ _ Ea)) as (A1 & A2 & A3). pose proof (F _ (nth_error_In _ _ Eb)) as (B1 & B2 & B3).
  unfold cell_like, joined. cbn [fst snd]. repeat split; apply zipw_length; auto.
Qed.

Lemma regular_all : forall t, regular t <-> forall r, In r t -> regular [r].
Proof.
  intro t. unfold regular. rewrite Forall_forall. split.
  - intros H r I. constructor; auto.
  - intros H r I. specialize (H r I). inversion H. auto.
Qed.

Lemma outs_names : forall names jobs, made_names (table_of jobs) names (map fst (flat_map (outs_of names) jobs)).
Proof.
  intros names jobs n. split.
  - intro I. apply in_map_iff in I. destruct I as ([m g] & E & I). simpl in E. subst m.
    apply in_flat_map in I. destruct I as ([[a b] outs] & J & I). unfold outs_of in I.
    destruct (index_of names a) as [i|] eqn:Ea; [|destruct I]. destruct (index_of names b) as [k|] eqn:Eb; [|destruct I].
    apply in_map_iff in I. destruct I as ([m f] & E & I). inversion E. subst.
    exists a, b, f. split; [|split; eapply nth_error_In; apply index_of_nth; eauto].
    apply in_flat_map. exists (a, b, outs). split; auto. apply in_map_iff. exists (n, f). auto.
  - intros (a & b & f & I & Ia & Ib). apply in_flat_map in I. destruct I as ([[a' b'] outs] & J & I).
    apply in_map_iff in I. destruct I as ([m g] & E & I). inversion E. subst.
    destruct (index_of_In _ _ Ia) as (i & Ea). destruct (index_of_In _ _ Ib) as (k & Eb).
    apply in_map_iff. eexists (n, _). split; [reflexivity|].
    apply in_flat_map. exists (a, b, outs). split; auto. unfold outs_of. rewrite Ea, Eb. apply in_map_iff. exists (n, f). simpl. split; [reflexivity|auto].
Qed.

Section V.
Context {PC : Type}.
Implicit Types v w c : vds PC.

Lemma Forall2_map : forall A B (P : A -> B -> Prop) (f : A -> B) l, (forall x, In x l -> P x (f x)) -> Forall2 P l (map f l).
Proof. induction l; simpl; intros; constructor; auto. Qed.

Definition jobs_good (jobs : list job) : Prop :=
  (forall a b outs n, In (a, b, outs) jobs -> In n (map fst outs) -> upper n = n) /\
  (forall a b outs, In (a, b, outs) jobs -> outs <> []) /\
  forall names, NoDup (map fst (flat_map (outs_of names) jobs)).

Lemma convert_made : forall h v names t avoid jobs, shows h v names t -> regular t -> jobs_good jobs ->
  (forall n, In n avoid -> ~ In n names) -> possible (table_of jobs) names ->
  exists h' c names' t', convert h v avoid jobs = (h', Ok c) /\ shows h' c names' t' /\ made_names (table_of jobs) names names' /\
    Forall2 (fun r r' => made (table_of jobs) names r names' r') t t' /\ same_rest v c /\
    fresh_from h c /\ grows h h'.
Proof.
  intros h v names t avoid jobs SH R (G1 & G2 & G3) AV (n & a & b & f & I & Ia & Ib).
  pose proof SH as (B & U & N & D & L & H).
  apply in_flat_map in I. destruct I as ([[a' b'] outs] & J & I). apply in_map_iff in I. destruct I as ([m g] & E & I). inversion E. subst m a' b' g.
  destruct (convert_ok h v names t avoid jobs SH AV) as (h' & c & E1 & E2 & E3 & E4 & E5).
  - exists a, b, outs. auto.
  - apply Forall_forall. intros [[x y] os] J'. split.
    + intros i k Hi Hk r Hr. eapply regular_same; eauto.
      * apply index_of_nth in Hi. eapply nth_error_lt; eauto.
      * apply index_of_nth in Hk. eapply nth_error_lt; eauto.
    + intros q Q. eapply G1; eauto.
  - apply G3.
  - eexists h', c, _, _. split; [exact E1|]. split; [exact E2|]. split; [apply outs_names|]. split; [|auto].
    apply Forall2_map. intros r Hr. apply build_made; auto. rewrite Forall_forall in L. apply L; auto.
Qed.

Lemma convert_avoid : forall h v avoid jobs n, In n avoid -> In n (map fst (v_pols v)) -> convert h v avoid jobs = (h, Raise RuntimeError).
Proof.
  intros h v avoid jobs n I K. unfold convert.
  assert (X : existsb (has v) avoid = true); [|rewrite X; reflexivity].
  apply existsb_exists. exists n. split; auto. rewrite has_index. destruct (index_of_In _ _ K) as (k & ->). reflexivity.
Qed.

Lemma convert_impossible : forall h v avoid jobs, (forall a b outs, In (a, b, outs) jobs -> outs <> []) ->
  ~ possible (table_of jobs) (map fst (v_pols v)) -> convert h v avoid jobs = (h, Raise RuntimeError).
Proof.
  intros h v avoid jobs NE NP. unfold convert. destruct (existsb (has v) avoid); auto.
  assert (X : existsb (fun '(a, b, _) => has v a && has v b) jobs = false); [|rewrite X; reflexivity].
  apply Bool.not_true_iff_false. intro X. apply existsb_exists in X. destruct X as ([[a b] outs] & J & K).
  apply NP. apply andb_true_iff in K. destruct K as (Ka & Kb). rewrite !has_index in *.
  destruct (index_of (map fst (v_pols v)) a) as [i|] eqn:Ea; [|discriminate].
  destruct (index_of (map fst (v_pols v)) b) as [k|] eqn:Eb; [|discriminate].
  specialize (NE _ _ _ J). destruct outs as [|[n f] outs]; [tauto|].
  exists n, a, b, f. split; [|split; eapply nth_error_In; apply index_of_nth; eauto].
  apply in_flat_map. exists (a, b, (n, f) :: outs). split; auto. left. reflexivity.
Qed.

Ltac good := split; [|split]; [clear; intros a b outs n I J; simpl in I; repeat (destruct I as [I|I]; [inversion I; subst; simpl in J; repeat (destruct J as [J|J]; [subst; reflexivity|]); destruct J|]); destruct I
  |clear; intros a b outs I; simpl in I; repeat (destruct I as [I|I]; [inversion I; discriminate|]); destruct I
  |let nn := fresh in intro nn; simpl; repeat match goal with |- context [index_of ?l ?x] => destruct (index_of l x) end; simpl;
   repeat constructor; simpl; intuition discriminate].

Lemma stokes_made : forall h v names t, shows h v names t -> regular t ->
  (forall n, In n (product_names stokes_table) -> ~ In n names) -> possible stokes_table names ->
  exists h' c names' t', convert_to_stokes h v = (h', Ok c) /\ shows h' c names' t' /\ made_names stokes_table names names' /\
    Forall2 (fun r r' => made stokes_table names r names' r') t t' /\ same_rest v c /\ fresh_from h c /\ grows h h'.
Proof. intros. unfold convert_to_stokes. eapply convert_made; eauto. good. Qed.
Lemma linear_made : forall h v names t, shows h v names t -> regular t ->
  (forall n, In n (product_names linear_table) -> ~ In n names) -> possible linear_table names ->
  exists h' c names' t', convert_to_linear h v = (h', Ok c) /\ shows h' c names' t' /\ made_names linear_table names names' /\
    Forall2 (fun r r' => made linear_table names r names' r') t t' /\ same_rest v c /\ fresh_from h c /\ grows h h'.
Proof. intros. unfold convert_to_linear. eapply convert_made; eauto. good. Qed.
Lemma circular_made : forall h v names t, shows h v names t -> regular t ->
  (forall n, In n (product_names circular_table) -> ~ In n names) -> possible circular_table names ->
  exists h' c names' t', convert_to_circular h v = (h', Ok c) /\ shows h' c names' t' /\ made_names circular_table names names' /\
    Forall2 (fun r r' => made circular_table names r names' r') t t' /\ same_rest v c /\ fresh_from h c /\ grows h h'.
Proof.
  intros h v names t S R AV P. unfold convert_to_circular.
  eapply convert_made; eauto; [good|].
  intros n I. apply AV. simpl in *. tauto.
Qed.

Lemma zipw_fst : forall A (f : A -> A -> A) a b, length a = length b -> (forall x y, f x y = x) -> zipw f a b = a.
Proof.
  intros A f. unfold zipw. induction a as [|x a IH]; intros [|y b] L H; simpl in *; try lia; auto.
  rewrite H, IH; auto.
Qed.
Lemma zipw_snd : forall A (f : A -> A -> A) a b, length a = length b -> (forall x y, f x y = y) -> zipw f a b = b.
Proof.
  intros A f. unfold zipw. induction a as [|x a IH]; intros [|y b] L H; simpl in *; try lia; auto.
  rewrite H, IH; auto.
Qed.
Lemma zipw_zipw : forall A (f g k : A -> A -> A) a b, length a = length b ->
  zipw f (zipw g a b) (zipw k a b) = zipw (fun x y => f (g x y) (k x y)) a b.
Proof.
  intros A f g k. unfold zipw. induction a as [|x a IH]; intros [|y b] L; simpl in *; try lia; auto. rewrite IH; auto.
Qed.
Lemma zipw_same : forall A (f : A -> A -> A) a, (forall x, f x x = x) -> zipw f a a = a.
Proof. intros A f a H. unfold zipw. induction a as [|x a IH]; simpl; auto. rewrite H, IH. reflexivity. Qed.

Lemma joined_joined : forall (c d : cell) x y, joined (cell_like x (joined c d)) (cell_like y (joined c d)) = joined c d.
Proof.
  intros c d x y. unfold joined, cell_like. cbn [fst snd]. f_equal; apply zipw_same.
  - intro z. replace (1 + 1)%Qc with two by reflexivity. apply two_half.
  - intros []; reflexivity.
Qed.

Lemma regular_data : forall names r a b ca cb, regular [r] -> cell_named names r a ca -> cell_named names r b cb ->
  length (fst (fst ca)) = length (fst (fst cb)).
Proof.
  intros names r a b ca cb R (i & _ & A) (k & _ & B). inversion R as [|? ? (n & F) _]. subst. rewrite Forall_forall in F.
  apply nth_error_In in A, B. apply F in A, B. destruct A as (A & _). destruct B as (B & _). congruence.
Qed.

(** Linear to Stokes and back. *)
Lemma back_to_linear : forall names r names1 r1 names2 r2, regular [r] ->
  made stokes_table names r names1 r1 -> made linear_table names1 r1 names2 r2 ->
  r_bl r2 = r_bl r /\ r_uvw r2 = r_uvw r /\
  forall a b ca cb, In (a, b) [("XX", "YY"); ("XY", "YX")]%string -> cell_named names r a ca -> cell_named names r b cb ->
    cell_named names2 r2 a (cell_like (fst (fst ca)) (joined ca cb)) /\ cell_named names2 r2 b (cell_like (fst (fst cb)) (joined ca cb)).
Proof.
  intros names r names1 r1 names2 r2 R (B1 & U1 & M1) (B2 & U2 & M2).
  split; [congruence|]. split; [congruence|]. intros a b ca cb I Ha Hb.
  pose proof (regular_data _ _ _ _ _ _ R Ha Hb) as LD.
  simpl in I. destruct I as [I|[I|[]]]; inversion I; subst a b; clear I.
  - assert (CI : cell_named names1 r1 "I"%string (cell_like (zipw cadd (fst (fst ca)) (fst (fst cb))) (joined ca cb))).
    { apply M1. eexists "XX"%string, "YY"%string, _, ca, cb. split; [simpl; auto|auto]. }
    assert (CQ : cell_named names1 r1 "Q"%string (cell_like (zipw csub (fst (fst ca)) (fst (fst cb))) (joined ca cb))).
    { apply M1. eexists "XX"%string, "YY"%string, _, ca, cb. split; [simpl; auto|auto]. }
    split; apply M2.
    + eexists "I"%string, "Q"%string, _, _, _. split; [left; reflexivity|]. split; [exact CI|]. split; [exact CQ|].
      rewrite joined_joined. f_equal. unfold cell_like. cbn [fst snd]. rewrite zipw_zipw by auto.
      symmetry. apply zipw_fst; auto. intros. apply stokes_xx.
    + eexists "I"%string, "Q"%string, _, _, _. split; [right; left; reflexivity|]. split; [exact CI|]. split; [exact CQ|].
      rewrite joined_joined. f_equal. unfold cell_like. cbn [fst snd]. rewrite zipw_zipw by auto.
      symmetry. apply zipw_snd; auto. intros. apply stokes_yy.
  - assert (CI : cell_named names1 r1 "U"%string (cell_like (zipw cadd (fst (fst ca)) (fst (fst cb))) (joined ca cb))).
    { apply M1. eexists "XY"%string, "YX"%string, _, ca, cb. split; [simpl; auto|auto]. }
    assert (CQ : cell_named names1 r1 "V"%string (cell_like (zipw (fun x y => cmul im (csub x y)) (fst (fst ca)) (fst (fst cb))) (joined ca cb))).
    { apply M1. eexists "XY"%string, "YX"%string, _, ca, cb. split; [simpl; auto|auto]. }
    split; apply M2.
    + eexists "U"%string, "V"%string, _, _, _. split; [right; right; left; reflexivity|]. split; [exact CI|]. split; [exact CQ|].
      rewrite joined_joined. f_equal. unfold cell_like. cbn [fst snd]. rewrite zipw_zipw by auto.
      symmetry. apply zipw_fst; auto. intros. apply stokes_xy.
    + eexists "U"%string, "V"%string, _, _, _. split; [right; right; right; left; reflexivity|]. split; [exact CI|]. split; [exact CQ|].
      rewrite joined_joined. f_equal. unfold cell_like. cbn [fst snd]. rewrite zipw_zipw by auto.
      symmetry. apply zipw_snd; auto. intros. apply stokes_yx.
Qed.

Lemma in_names : forall names r n (c : cell), cell_named names r n c -> In n names.
Proof. intros names r n c (k & N & _). eapply nth_error_In; eauto. Qed.


Lemma Forall2_nth_error_r : forall A B (P : A -> B -> Prop) l l', Forall2 P l l' -> forall k y, nth_error l' k = Some y ->
  exists x, nth_error l k = Some x /\ P x y.
Proof.
  induction 1 as [|a b l l' H F IH]; intros [|k] y E; simpl in *; try discriminate.
  - inversion E. subst. eauto.
  - apply IH. auto.
Qed.
Lemma nth_repeat_lt : forall A (x d : A) n k, (k < n)%nat -> nth k (repeat x n) d = x.
Proof. induction n; intros [|k] H; simpl; try lia; auto. apply IHn. lia. Qed.

Lemma product_list : forall tab n, In n (product_names tab) <-> exists a b f, In (n, (a, b), f) tab.
Proof.
  intros tab n. unfold product_names. rewrite in_map_iff. split.
  - intros ([[m [a b]] f] & E & I). simpl in E. subst. eauto.
  - intros (a & b & f & I). exists (n, (a, b), f). auto.
Qed.

Lemma linear_stokes_linear : forall h v names t, shows h v names t -> regular t ->
  (forall n, In n (product_names stokes_table) -> ~ In n names) ->
  (forall n, In n (product_names linear_table) -> In n names) ->
  exists h1 s h2 l names2 t2, convert_to_stokes h v = (h1, Ok s) /\ convert_to_linear h1 s = (h2, Ok l) /\
    shows h2 l names2 t2 /\ (forall n, In n names2 <-> In n (product_names linear_table)) /\ same_rest v l /\
    shows h2 v names t /\ separate v l /\
    Forall2 (fun r r2 => r_bl r2 = r_bl r /\ r_uvw r2 = r_uvw r /\
      forall a b ca cb, In (a, b) [("XX", "YY"); ("XY", "YX")]%string -> cell_named names r a ca -> cell_named names r b cb ->
        cell_named names2 r2 a (cell_like (fst (fst ca)) (joined ca cb)) /\
        cell_named names2 r2 b (cell_like (fst (fst cb)) (joined ca cb))) t t2.
Proof.
  intros h v names t SH R NS HL.
  assert (P4 : In "XX"%string names /\ In "YY"%string names /\ In "XY"%string names /\ In "YX"%string names) by (repeat split; apply HL; simpl; tauto).
  destruct P4 as (P1 & P2 & P3 & P4).
  destruct (stokes_made h v names t SH R NS) as (h1 & s & n1 & t1 & E1 & S1 & N1 & M1 & SR1 & F1 & G1).
  { exists "I"%string, "XX"%string, "YY"%string, cadd. split; [simpl; auto|auto]. }
  pose proof S1 as (_ & _ & _ & _ & L1 & _).
  assert (I4 : forall n, In n n1 <-> In n (product_names stokes_table)).
  { intro n. rewrite (N1 n), product_list. split.
    - intros (a & b & f & I & _). eauto.
    - intros (a & b & f & I). exists a, b, f. split; auto. simpl in I. repeat (destruct I as [I|I]; [inversion I; subst; auto|]). destruct I. }
  destruct (linear_made h1 s n1 t1 S1) as (h2 & l & n2 & t2 & E2 & S2 & N2 & M2 & SR2 & F2 & G2).
  { apply regular_all. intros r1 I. apply In_nth_error in I. destruct I as (k & I).
    destruct (Forall2_nth_error_r _ _ _ _ _ M1 _ _ I) as (r & Ir & M).
    eapply made_regular; eauto.
    - rewrite Forall_forall in L1. apply L1. eapply nth_error_In; eauto.
    - rewrite regular_all in R. apply R. eapply nth_error_In; eauto. }
  { intros n I J. apply I4 in J. simpl in I, J. intuition congruence. }
  { exists "XX"%string, "I"%string, "Q"%string, (fun x y => chalf (cadd x y)). split; [simpl; auto|]. split; apply I4; simpl; auto. }
  exists h1, s, h2, l, n2, t2. split; [auto|]. split; [auto|]. split; [auto|]. split; [|split; [|split; [|split]]].
  - intro n. rewrite (N2 n), product_list. split.
    + intros (a & b & f & I & _). eauto.
    + intros (a & b & f & I). exists a, b, f. split; auto. rewrite !I4. simpl in I. repeat (destruct I as [I|I]; [inversion I; subst; simpl; tauto|]). destruct I.
  - unfold same_rest in *. intuition congruence.
  - eapply grows_shows; [exact G2|]. eapply grows_shows; [exact G1|auto].
  - eapply (fresh_separate h1 l v names t); eauto. eapply grows_shows; eauto.
  - clear - M1 M2 R. revert t2 M2. induction M1 as [|r r1 t t1 A M1 IH]; intros t2 M2; inversion M2; subst; constructor.
    + eapply back_to_linear; eauto. rewrite regular_all in R. apply R. left. auto.
    + apply IH; auto. rewrite regular_all in R |- *. intros x I. apply R. right. auto.
Qed.

(** ** Gains *)
Lemma gain_length : forall gains n i j, Forall (fun g => length g = n) gains -> 0 <= i < zlen gains -> 0 <= j < zlen gains ->
  length (gain gains (i, j)) = n.
Proof.
  intros gains n i j G Hi Hj. rewrite Forall_forall in G. unfold gain. apply zipw_length; apply G; apply nth_In; simpl; unfold zlen in *; lia.
Qed.

Lemma cmul_assoc : forall x y z, cmul (cmul x y) z = cmul x (cmul y z).
Proof. intros [a b] [c d] [e f]. ceq. Qed.

Definition times (g1 g2 : list (list C)) : list (list C) := zipw (zipw cmul) g1 g2.

Lemma zipw_nth : forall A B D (f : A -> B -> D) a b k da db dd, length a = length b -> (k < length a)%nat ->
  nth k (zipw f a b) dd = f (nth k a da) (nth k b db).
Proof.
  intros A B D f. unfold zipw. induction a as [|x a IH]; intros [|y b] [|k] da db dd L K; simpl in *; try lia; auto.
  apply IH; lia.
Qed.

Lemma gain_times : forall g1 g2 n i j, length g1 = length g2 ->
  Forall (fun g => length g = n) g1 -> Forall (fun g => length g = n) g2 -> 0 <= i < zlen g1 -> 0 <= j < zlen g1 ->
  gain (times g1 g2) (i, j) = zipw cmul (gain g1 (i, j)) (gain g2 (i, j)).
Proof.
  intros g1 g2 n i j L G1 G2 Hi Hj. unfold gain, times. simpl.
  rewrite !(zipw_nth _ _ _ _ _ _ _ [] [] []) by (unfold zlen in *; lia).
  set (a := nth (Z.to_nat j) g1 []). set (b := nth (Z.to_nat j) g2 []). set (c := nth (Z.to_nat i) g1 []). set (d := nth (Z.to_nat i) g2 []).
  rewrite Forall_forall in G1, G2. unfold zlen in *.
  assert (La : length a = n) by (apply G1, nth_In; lia). assert (Lb : length b = n) by (apply G2, nth_In; lia).
  assert (Lc : length c = n) by (apply G1, nth_In; lia). assert (Ld : length d = n) by (apply G2, nth_In; lia).
  clearbody a b c d. clear - La Lb Lc Ld. revert b c d n La Lb Lc Ld. unfold zipw.
  induction a as [|x a IH]; intros [|y b] [|z c] [|w d] n La Lb Lc Ld; simpl in *; try lia; auto.
  f_equal; [|eapply IH; eauto; lia]. destruct x, y, z, w. ceq.
Qed.

Lemma scaled_twice : forall g1 g2 n t, gains_for g1 n t -> gains_for g2 n t -> length g1 = length g2 ->
  map (scaled g2) (map (scaled g1) t) = map (scaled (times g1 g2)) t.
Proof.
  intros g1 g2 n t (G1 & T1) (G2 & T2) L. rewrite map_map. apply map_ext_in. intros r I.
  rewrite Forall_forall in T1, T2. destruct (T1 r I) as (C1 & B1 & B2). unfold scaled. simpl. f_equal.
  rewrite map_map. apply map_ext_in. intros c Ic. simpl. rewrite Forall_forall in C1. apply C1 in Ic.
  destruct (r_bl r) as [i j]. simpl in B1, B2. rewrite (gain_times _ _ n) by auto.
  f_equal. f_equal.
  assert (X1 : length (gain g1 (i, j)) = n) by (apply gain_length; auto).
  assert (X2 : length (gain g2 (i, j)) = n) by (apply gain_length; auto; unfold zlen in *; lia).
  revert Ic X1 X2. generalize (fst (fst c)) (gain g1 (i, j)) (gain g2 (i, j)). clear. intros a b d. revert b d n. unfold zipw.
  induction a as [|x a IH]; intros [|y b] [|z d] n La Lb Ld; simpl in *; try lia; auto.
  f_equal; [apply cmul_assoc|]. eapply IH; eauto; lia.
Qed.

Lemma scaled_gains_for : forall g1 g2 n t, gains_for g1 n t -> gains_for g2 n t -> gains_for g2 n (map (scaled g1) t).
Proof.
  intros g1 g2 n t (G1 & T1) (G2 & T2). split; auto. apply Forall_forall. intros r' I. apply in_map_iff in I.
  destruct I as (r & <- & I). rewrite Forall_forall in T1, T2. destruct (T2 r I) as (C2 & B2). destruct (T1 r I) as (_ & B1 & B3). simpl. split; [|auto].
  apply Forall_forall. intros c Ic. apply in_map_iff in Ic. destruct Ic as (c0 & <- & Ic). simpl. rewrite Forall_forall in C2. apply C2 in Ic.
  destruct (r_bl r) as [i j]. apply zipw_length; auto. apply gain_length; auto.
Qed.

Definition ones (k n : nat) : list (list C) := repeat (repeat ((1%Qc, 0%Qc) : C) n) k.
Lemma scaled_ones : forall k n t, gains_for (ones k n) n t -> map (scaled (ones k n)) t = t.
Proof.
  intros k n t (G & T). rewrite <- (map_id t) at 2. apply map_ext_in. intros [b u cs] I. rewrite Forall_forall in T.
  destruct (T _ I) as (C1 & B1 & B2). simpl in *. unfold scaled. simpl. f_equal. rewrite <- (map_id cs) at 2. apply map_ext_in. intros [[d w] m] Ic.
  rewrite Forall_forall in C1. apply C1 in Ic. simpl in *. f_equal. f_equal.
  assert (X : gain (ones k n) b = repeat ((1%Qc, 0%Qc) : C) n).
  { unfold gain, ones. unfold zlen, ones in B1, B2. rewrite repeat_length in *. rewrite !nth_repeat_lt by lia. clear.
    unfold zipw. induction n; simpl; auto. f_equal; auto. }
  rewrite X. clear - Ic. revert n Ic. unfold zipw. induction d as [|x d IH]; intros [|n] E; simpl in *; try lia; auto.
  f_equal; [|apply IH; lia]. destruct x. ceq.
Qed.
End V.
