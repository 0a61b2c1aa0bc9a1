(** Proofs about changes of polarization basis and gains. *)
From Coq Require Import String List ZArith QArith Qcanon Bool Lia.
From Verif Require Import M_Vis M_VisPol S_Vis S_VisPol P_Base P_Vis P_Vis2 P_Vis3.
Import ListNotations.
Open Scope Z_scope.

Lemma zip2_ok : forall A B D (f : A -> B -> D) a b, length a = length b -> zip2 f a b = Ok (zipw f a b).
Proof.
  induction a as [|x a IH]; intros [|y b] H; simpl in *; try lia; auto.
  rewrite IH by lia. reflexivity.
Qed.

Lemma arith_ok : forall A B D (f : A -> B -> D) (T : Type) (g : T -> list A) (g' : T -> list B) (t : list T),
  (forall x, In x t -> length (g x) = length (g' x)) ->
  arith f (map g t) (map g' t) = Ok (map (fun x => zipw f (g x) (g' x)) t).
Proof.
  intros A B D f T g g' t H. unfold arith. induction t as [|x t IH]; simpl; auto.
  assert (X : arith f (map g t) (map g' t) = Ok (map (fun x => zipw f (g x) (g' x)) t)) by (apply IH; intros; apply H; right; auto).
  unfold arith in X. destruct (zip2 (zip2 f) (map g t) (map g' t)) as [l|e]; simpl in *; [|discriminate].
  rewrite zip2_ok by (apply H; left; auto). simpl. rewrite X. reflexivity.
Qed.

Definition mean (x y : Qc) : Qc := ((x + y) / two)%Qc.
Definition combine_cells (f : C -> C -> C) (c d : cell) : cell :=
  (zipw f (fst (fst c)) (fst (fst d)), zipw mean (snd (fst c)) (snd (fst d)), zipw orb (snd c) (snd d)).

Definition same_size (c d : cell) : Prop :=
  length (fst (fst c)) = length (fst (fst d)) /\ length (snd (fst c)) = length (snd (fst d)) /\ length (snd c) = length (snd d).

Lemma combine_pols_ok : forall n f a b t i k, upper n = n ->
  (forall r, In r t -> same_size (cell_at i r) (cell_at k r)) ->
  combine_pols n f (column a t i) (column b t k) = Ok (pol_of n (map (fun r => combine_cells f (cell_at i r) (cell_at k r)) t)).
Proof.
  intros n f a b t i k U H. unfold combine_pols, column. simpl.
  rewrite (arith_ok _ _ _ f row (fun x => fst (fst (cell_at i x))) (fun x => fst (fst (cell_at k x)))) by (intros x I; apply H in I; apply I).
  simpl.
  rewrite (arith_ok _ _ _ (fun x y => ((x + y) / two)%Qc) row (fun x => snd (fst (cell_at i x))) (fun x => snd (fst (cell_at k x)))) by (intros x I; apply H in I; apply I).
  simpl.
  rewrite (arith_ok _ _ _ orb row (fun x => snd (cell_at i x)) (fun x => snd (cell_at k x))) by (intros x I; apply H in I; apply I).
  simpl. unfold new_pds, pol_of. rewrite U, !map_map. reflexivity.
Qed.

Fixpoint index_of (names : list string) (n : string) : option nat :=
  match names with [] => None | m :: l => if String.eqb m n then Some O else option_map S (index_of l n) end.

Lemma index_of_nth : forall names n k, index_of names n = Some k -> nth_error names k = Some n.
Proof.
  induction names as [|m names IH]; intros n k H; simpl in *; [discriminate|].
  destruct (String.eqb_spec m n); [inversion H; subst; auto|].
  destruct (index_of names n) eqn:E; [|discriminate]. simpl in H. inversion H. subst. simpl. auto.
Qed.

Lemma index_of_In : forall names n, In n names -> exists k, index_of names n = Some k.
Proof.
  induction names as [|m names IH]; intros n I; simpl in *; [tauto|].
  destruct (String.eqb_spec m n); [eauto|]. destruct I as [I|I]; [congruence|].
  destruct (IH n I) as (k & ->). simpl. eauto.
Qed.

Lemma index_of_out : forall names n, ~ In n names -> index_of names n = None.
Proof.
  induction names as [|m names IH]; intros n I; simpl in *; auto.
  destruct (String.eqb_spec m n); [tauto|]. rewrite IH by tauto. reflexivity.
Qed.

Lemma index_of_unique : forall names n k, NoDup names -> nth_error names k = Some n -> index_of names n = Some k.
Proof.
  intros names n k D E. destruct (index_of_In names n) as (j & J); [eapply nth_error_In; eauto|].
  rewrite J. f_equal. rewrite NoDup_nth_error in D. apply D.
  - eapply nth_error_lt. eapply index_of_nth; eauto.
  - rewrite E. apply index_of_nth. auto.
Qed.

Lemma lookup_index : forall l n, match lookup l n with
  | Some r => exists k, index_of (map fst l) n = Some k /\ nth_error l k = Some (n, r)
  | None => index_of (map fst l) n = None end.
Proof.
  induction l as [|[m r] l IH]; intro n; simpl; auto.
  destruct (String.eqb_spec m n) as [->|]; [exists O; auto|].
  specialize (IH n). destruct (lookup l n).
  - destruct IH as (k & E & N). exists (S k). rewrite E. auto.
  - rewrite IH. reflexivity.
Qed.

(** The new polarizations as functions of a row. *)
Definition outs_of (names : list string) (j : job) : list (string * (row -> cell)) :=
  let '(a, b, outs) := j in
  match index_of names a, index_of names b with
  | Some i, Some k => map (fun nf => (fst nf, fun r => combine_cells (snd nf) (cell_at i r) (cell_at k r))) outs
  | _, _ => []
  end.
Definition build (outs : list (string * (row -> cell))) (r : row) : row :=
  mkR (r_bl r) (r_uvw r) (map (fun o => snd o r) outs).

Lemma collect_app : forall A (a b : list A), collect (map Ok a ++ map Ok b) = Ok (a ++ b).
Proof.
  induction a as [|x a IH]; intro b; simpl.
  - induction b as [|y b IHb]; simpl; auto. rewrite IHb. reflexivity.
  - rewrite IH. reflexivity.
Qed.

Lemma collect_ok : forall A (a : list A), collect (map Ok a) = Ok a.
Proof. intros. rewrite <- (app_nil_r (map Ok a)). change (@nil (res A)) with (map (@Ok A) []). rewrite collect_app, app_nil_r. reflexivity. Qed.

Section V.
Context {PC : Type}.
Implicit Types v w c : vds PC.

Lemma has_index : forall v n, has v n = match index_of (map fst (v_pols v)) n with Some _ => true | None => false end.
Proof.
  intros v n. unfold has. pose proof (lookup_index (v_pols v) n) as L. destruct (lookup (v_pols v) n).
  - destruct L as (k & E & _). rewrite E. reflexivity.
  - rewrite L. reflexivity.
Qed.

Definition job_fits (names : list string) (t : list row) (j : job) : Prop :=
  let '(a, b, outs) := j in
  (forall i k, index_of names a = Some i -> index_of names b = Some k -> forall r, In r t -> same_size (cell_at i r) (cell_at k r)) /\
  (forall n, In n (map fst outs) -> upper n = n).

Lemma run_job_ok : forall h v names t j, shows h v names t -> job_fits names t j ->
  run_job h v j = map Ok (map (fun o => pol_of (fst o) (map (snd o) t)) (outs_of names j)).
Proof.
  intros h v names t [[a b] outs] S (F & U). pose proof S as (_ & _ & N & _). unfold run_job, outs_of.
  pose proof (lookup_index (v_pols v) a) as La. pose proof (lookup_index (v_pols v) b) as Lb. rewrite N in La, Lb.
  destruct (lookup (v_pols v) a) as [ra|]; [|rewrite La; reflexivity].
  destruct La as (i & Ia & Na). rewrite Ia.
  destruct (lookup (v_pols v) b) as [rb|]; [|rewrite Lb; reflexivity].
  destruct Lb as (k & Ib & Nb). rewrite Ib.
  destruct (shows_col _ _ _ _ _ _ _ S Na) as (_ & ->). destruct (shows_col _ _ _ _ _ _ _ S Nb) as (_ & ->).
  rewrite !map_map. apply map_ext_in. intros [n f] I. simpl.
  apply combine_pols_ok; [apply U; apply (in_map fst) in I; auto|]. intros r Hr. eapply F; eauto.
Qed.

Lemma build_columns : forall outs t,
  columns (map fst outs) (map (build outs) t) = map (fun o => pol_of (fst o) (map (snd o) t)) outs.
Proof.
  intros outs t. apply nth_error_ext'. intro k. rewrite nth_error_map.
  destruct (nth_error outs k) as [[n g]|] eqn:E.
  - rewrite (columns_nth _ _ k n) by (rewrite nth_error_map, E; reflexivity). simpl. f_equal. unfold column, pol_of.
    assert (X : forall r, cell_at k (build outs r) = g r).
    { intro r. unfold cell_at, build. simpl. apply nth_error_nth. rewrite nth_error_map, E. reflexivity. }
    rewrite !map_map. f_equal; apply map_ext; intro r; rewrite X; reflexivity.
  - simpl. apply nth_error_None. rewrite columns_length, map_length. apply nth_error_None. auto.
Qed.

Lemma convert_ok : forall h v names t avoid jobs, shows h v names t ->
  (forall n, In n avoid -> ~ In n names) ->
  (exists a b o, In (a, b, o) jobs /\ In a names /\ In b names) ->
  Forall (job_fits names t) jobs ->
  NoDup (map fst (flat_map (outs_of names) jobs)) ->
  exists h' c, convert h v avoid jobs = (h', Ok c) /\
    shows h' c (map fst (flat_map (outs_of names) jobs)) (map (build (flat_map (outs_of names) jobs)) t) /\
    same_rest v c /\ fresh_from h c /\ grows h h'.
Proof.
  intros h v names t avoid jobs S AV (a & b & o & Ij & Ia & Ib) F ND. pose proof S as (B & U & N & D & L & H).
  unfold convert. 
  assert (E1 : existsb (has v) avoid = false).
  { apply Bool.not_true_iff_false. intro X. apply existsb_exists in X. destruct X as (n & I & K).
    rewrite has_index, N, index_of_out in K by (apply AV; auto). discriminate. }
  assert (E2 : existsb (fun '(a, b, _) => has v a && has v b) jobs = true).
  { apply existsb_exists. exists (a, b, o). split; auto. rewrite !has_index, N.
    destruct (index_of_In _ _ Ia) as (x & ->). destruct (index_of_In _ _ Ib) as (y & ->). reflexivity. }
  rewrite E1, E2. cbn [negb].
  set (outs := flat_map (outs_of names) jobs) in *.
  assert (E3 : flat_map (run_job h v) jobs = map Ok (columns (map fst outs) (map (build outs) t))).
  { rewrite build_columns. unfold outs. clear ND E1 E2 Ij outs. induction jobs as [|j jobs IH]; simpl; auto.
    inversion F; subst. rewrite (run_job_ok _ _ _ _ _ S) by auto. rewrite IH by auto. rewrite !map_app. reflexivity. }
  rewrite E3, collect_ok, (copy_bare_eq _ _ _ _ S).
  assert (UP : forall n, In n (map fst outs) -> upper n = n).
  { intros n I. unfold outs in I. apply in_map_iff in I. destruct I as ([m g] & E & I). simpl in E. subst m.
    apply in_flat_map in I. destruct I as ([[x y] os] & Ij' & I). rewrite Forall_forall in F. apply F in Ij'.
    destruct Ij' as (_ & X). apply X. unfold outs_of in I. destruct (index_of names x); [|destruct I]. destruct (index_of names y); [|destruct I].
    apply in_map_iff in I. destruct I as ([q f] & E & I). inversion E. subst. apply (in_map fst) in I. auto. }
  rewrite append_each_ok.
  - simpl. rewrite columns_names. eexists _, _. split; [reflexivity|]. split; [|split; [repeat split|split]].
    + apply (shows_new h (mkV (v_jd v) (v_freq v) (v_bl v) (length (ha h)) (v_aa v) (v_pc v) [] (v_extra v)) (map fst outs) (map (build outs) t) _ 0%nat); auto.
      * simpl. rewrite B, map_map. reflexivity.
      * apply Forall_forall. intros r I. apply in_map_iff in I. destruct I as (x & <- & _). simpl. rewrite !map_length. reflexivity.
      * simpl. rewrite map_map. simpl. apply nth_error_last.
    + split; simpl; auto. intros n r I. apply refs_from_ge in I. auto.
    + eexists _, _. reflexivity.
  - simpl. rewrite columns_names. auto.
  - apply columns_ok; auto. unfold nbaseline. simpl. rewrite B, !zlen_map. reflexivity.
Qed.

(** ** Gains *)
Lemma scale_rows_ok : forall gains n todo done (d : list (list C)),
  Forall (fun g => length g = n) gains ->
  Forall (fun bx => length (snd bx) = n /\ 0 <= fst (fst bx) < zlen gains /\ 0 <= snd (fst bx) < zlen gains) todo ->
  scale_rows gains (map fst todo) (length done) (done ++ map snd todo) =
    Ok (done ++ map (fun bx => zipw cmul (snd bx) (gain gains (fst bx))) todo).
Proof.
  intros gains n todo. induction todo as [|[[i j] x] todo IH]; intros done d G F; simpl; auto.
  inversion F as [|? ? (L & Hi & Hj) F']; subst. simpl in *.
  rewrite nth_error_app2 by lia. rewrite Nat.sub_diag. simpl.
  assert (PI : forall k, 0 <= k < zlen gains -> py_index gains k = Ok (nth (Z.to_nat k) gains [])).
  { intros k Hk. destruct (py_index_valid _ gains k) as (g & E & N); [lia|]. rewrite E. f_equal. unfold position in N.
    destruct (Z.ltb_spec k 0); [lia|]. symmetry. apply nth_error_nth. auto. }
  rewrite !PI by lia. simpl.
  assert (LG : forall k, 0 <= k < zlen gains -> length (nth (Z.to_nat k) gains []) = length x).
  { intros k Hk. rewrite Forall_forall in G. apply G. apply nth_In. unfold zlen in Hk. lia. }
  rewrite zip2_ok by (rewrite !LG by lia; auto). simpl.
  assert (LZ : length (gain gains (i, j)) = length x).
  { unfold gain, zipw. simpl. rewrite map_length, combine_length, !LG by lia. lia. }
  change (zipw (fun a b : C => cmul (conj a) b) (nth (Z.to_nat j) gains []) (nth (Z.to_nat i) gains [])) with (gain gains (i, j)).
  rewrite zip2_ok by auto. simpl. rewrite upd_app.
  specialize (IH (done ++ [zipw cmul x (gain gains (i, j))]) d G F'). rewrite app_length in IH. simpl in IH.
  rewrite <- !app_assoc in IH. simpl in IH. rewrite <- IH. f_equal. lia.
Qed.

Lemma scaled_cell : forall gains (names : list string) t x k, Forall (fun r => length (r_cells r) = length names) t -> In x t -> (k < length names)%nat ->
  cell_at k (scaled gains x) = (zipw cmul (fst (fst (cell_at k x))) (gain gains (r_bl x)), snd (fst (cell_at k x)), snd (cell_at k x)).
Proof.
  intros gains names t x k L I K. rewrite Forall_forall in L. unfold cell_at at 1. unfold scaled. simpl.
  set (f := fun c : cell => (zipw cmul (fst (fst c)) (gain gains (r_bl x)), snd (fst c), snd c)).
  rewrite (nth_indep _ no_cell (f no_cell)) by (rewrite map_length, L; auto).
  rewrite map_nth. reflexivity.
Qed.

Lemma scale_pols_ok : forall gains n h0 v names t, gains_for gains n t -> shows h0 v names t -> forall l k h,
  (forall i, nth_error l i = nth_error (v_pols v) (k + i)) ->
  (forall i m r, nth_error (v_pols v) i = Some (m, r) -> (k <= i)%nat -> nth_error (hp h) r = Some (column m t i)) ->
  exists h', scale_pols gains (v_bl v) l h = (h', Ok tt) /\ ha h' = ha h /\ length (hp h') = length (hp h) /\
    (forall i m r, nth_error (v_pols v) i = Some (m, r) -> (k <= i < k + length l)%nat ->
       nth_error (hp h') r = Some (column m (map (scaled gains) t) i)) /\
    (forall r, ~ In r (map snd l) -> nth_error (hp h') r = nth_error (hp h) r).
Proof.
  intros gains n h0 v names t (G1 & G2) SH. pose proof SH as (B & U & N & D & L & H).
  induction l as [|[m r] l IH]; intros k h HL COL; simpl.
  - exists h. repeat split; auto. intros. lia.
  - assert (VP : nth_error (v_pols v) k = Some (m, r)) by (rewrite <- (Nat.add_0_r k), <- HL; reflexivity).
    rewrite (COL _ _ _ VP) by lia. simpl.
    assert (KN : (k < length names)%nat) by (rewrite <- N, map_length; eapply nth_error_lt; eauto).
    assert (E : scale_rows gains (v_bl v) 0 (map (fun x => fst (fst (cell_at k x))) t) =
      Ok (map (fun x => fst (fst (cell_at k (scaled gains x)))) t)).
    { pose proof (scale_rows_ok gains n (map (fun x => (r_bl x, fst (fst (cell_at k x)))) t) [] []) as X. simpl in X.
      rewrite !map_map in X. simpl in X. rewrite B. etransitivity; [apply X; auto|].
      - apply Forall_forall. intros p I. apply in_map_iff in I. destruct I as (x & <- & I). simpl.
        rewrite Forall_forall in G2, L. destruct (G2 x I) as (C1 & C2 & C3). repeat split; try tauto.
        rewrite Forall_forall in C1. apply C1. unfold cell_at. apply nth_In. rewrite L; auto.
      - f_equal. apply map_ext_in. intros x I. rewrite (scaled_cell _ names t) by auto. reflexivity. }
    rewrite E.
    assert (NR : forall i m' r', nth_error (v_pols v) i = Some (m', r') -> i <> k -> r' <> r).
    { intros i m' r' K NE ->. apply NE. pose proof (shows_refs _ _ _ _ SH) as ND. rewrite NoDup_nth_error in ND. apply ND.
      - rewrite map_length. eapply nth_error_lt; eauto.
      - rewrite !nth_error_map, K, VP. reflexivity. }
    set (h2 := set_pol h r _).
    destruct (IH (S k) h2) as (h' & R1 & R2 & R3 & R4 & R5).
    { intro i. replace (S k + i)%nat with (k + S i)%nat by lia. rewrite <- HL. reflexivity. }
    { intros i m' r' K LE. unfold h2. simpl. rewrite upd_other; [apply COL; auto; lia|]. eapply NR; eauto. lia. }
    exists h'. split; [auto|]. split; [auto|]. split; [rewrite R3; simpl; apply upd_length|]. split.
    + intros i m' r' K LE. destruct (Nat.eq_dec i k) as [->|NE].
      * rewrite VP in K. inversion K. subst m' r'.
        assert (NI : ~ In r (map snd l)).
        { intro I. apply In_nth_error in I. destruct I as (j & I). rewrite nth_error_map in I.
          destruct (nth_error l j) as [[m' r']|] eqn:Ej; [|discriminate]. simpl in I. inversion I. subst r'.
          assert (K2 : nth_error (v_pols v) (k + S j) = Some (m', r)) by (rewrite <- HL; exact Ej).
          apply (NR _ _ _ K2); auto. lia. }
        rewrite R5 by auto. unfold h2. simpl. rewrite upd_same by (eapply nth_error_lt; apply (COL _ _ _ VP); lia).
        f_equal. unfold column. rewrite !map_map. f_equal; apply map_ext_in; intros x I; rewrite (scaled_cell _ names t) by auto; reflexivity.
      * apply R4; auto. lia.
    + intros s NS. rewrite R5 by tauto. unfold h2. simpl. apply upd_other. intro. subst. tauto.
Qed.

Lemma prefix_split : forall A (l l' : list A),
  (forall k, (k < length l)%nat -> nth_error l' k = nth_error l k) -> exists x, l' = l ++ x.
Proof.
  induction l as [|a l IH]; intros l' H; [exists l'; auto|].
  destruct l' as [|b l']; [specialize (H O ltac:(simpl; lia)); discriminate|].
  destruct (IH l') as (x & ->).
  - intros k K. specialize (H (S k) ltac:(simpl; lia)). exact H.
  - specialize (H O ltac:(simpl; lia)). inversion H. exists x. reflexivity.
Qed.

Lemma grows_trans : forall a b d : heap, grows a b -> grows b d -> grows a d.
Proof. intros a b d (p & q & ->) (p' & q' & ->). exists (p ++ p'), (q ++ q'). simpl. rewrite !app_assoc. reflexivity. Qed.

Lemma scale_data_ok : forall h v names t gains n, shows h v names t -> gains_for gains n t ->
  exists h' c, scale_data h v gains = (h', Ok c) /\ shows h' c names (map (scaled gains) t) /\ same_rest v c /\
    fresh_from h c /\ grows h h'.
Proof.
  intros h v names t gains n SH G. unfold scale_data.
  destruct (copy_ok _ _ _ _ SH) as (h1 & c & E & SC & SR & FR & GR). rewrite E.
  destruct (scale_pols_ok gains n h1 c names t G SC (v_pols c) 0 h1) as (h' & R1 & R2 & R3 & R4 & R5); auto.
  { intros i m r K _. apply (shows_col _ _ _ _ _ _ _ SC K). }
  rewrite R1. exists h', c. split; [reflexivity|]. split; [|split; [auto|split; [auto|]]].
  - pose proof SC as (B & U & N & D & L & H). unfold shows.
    split; [rewrite B, map_map; reflexivity|]. split; [rewrite R2, U, map_map; reflexivity|].
    split; [auto|]. split; [auto|]. split.
    + apply Forall_forall. intros r I. apply in_map_iff in I. destruct I as (x & <- & I). simpl. rewrite map_length.
      rewrite Forall_forall in L. auto.
    + intros k name r K. split; [apply (H _ _ _ K)|]. apply R4; auto. split; [lia|]. simpl. eapply nth_error_lt; eauto.
  - destruct GR as (p & a & ->). simpl in *. destruct (prefix_split _ (hp h) (hp h')) as (x & X).
    + intros k K. rewrite R5; [apply nth_error_app1; auto|]. intro I. apply in_map_iff in I. destruct I as ([m r] & EE & I).
      simpl in EE. subst r. apply FR in I. lia.
    + exists x, a. destruct h'. simpl in *. subst. reflexivity.
Qed.
End V.
