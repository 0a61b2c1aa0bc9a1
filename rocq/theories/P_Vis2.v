(** Sorting by baseline, selecting baselines, independence of copies. *)
From Coq Require Import String List ZArith QArith Qcanon Sorted Permutation Bool Lia Lqa.
From Verif Require Import M_Vis S_Vis P_Base P_Vis.
Import ListNotations.
Open Scope Z_scope.

(** ** The baseline order *)
Lemma insert_key_perm : forall p l, Permutation (p :: l) (insert_key p l).
Proof.
  induction l as [|q l IH]; simpl; auto. destruct (key_leb p q); auto.
  rewrite perm_swap. constructor. auto.
Qed.
Lemma sort_keys_perm : forall l, Permutation l (sort_keys l).
Proof. induction l as [|p l IH]; simpl; auto. rewrite <- insert_key_perm. constructor. auto. Qed.

Definition key_le (p q : Z * Z) : Prop := fst p < fst q \/ (fst p = fst q /\ snd p <= snd q).
Lemma key_leb_spec : forall p q, if key_leb p q then key_le p q else key_le q p.
Proof. intros p q. unfold key_leb, key_le. destruct p, q; simpl. destruct (Z.ltb_spec z z1), (Z.eqb_spec z z1), (Z.leb_spec z0 z2); simpl; lia. Qed.
Lemma key_le_trans : forall p q r, key_le p q -> key_le q r -> key_le p r.
Proof. unfold key_le. intros. lia. Qed.

Lemma insert_key_sorted : forall p l, StronglySorted key_le l -> StronglySorted key_le (insert_key p l).
Proof.
  induction l as [|q l IH]; intro S; simpl.
  - constructor; constructor.
  - inversion S as [|? ? S' F]; subst. pose proof (key_leb_spec p q) as K. destruct (key_leb p q).
    + constructor; auto. constructor; auto. rewrite Forall_forall in *. intros r I. eapply key_le_trans; eauto.
    + constructor; auto. rewrite Forall_forall in *. intros r I.
      apply (Permutation_in _ (Permutation_sym (insert_key_perm p l))) in I. destruct I as [<-|I]; auto.
Qed.
Lemma sort_keys_sorted : forall l, StronglySorted key_le (sort_keys l).
Proof. induction l; simpl; [constructor|]. apply insert_key_sorted. auto. Qed.

Lemma filter_insert : forall (Q : Z * Z -> bool) p l,
  (Q p = true -> forall q, In q l -> Q q = true -> key_leb p q = true) ->
  filter Q (insert_key p l) = if Q p then p :: filter Q l else filter Q l.
Proof.
  intros Q p l. induction l as [|q l IH]; intro H; simpl.
  - destruct (Q p); auto.
  - destruct (key_leb p q) eqn:E; simpl.
    + destruct (Q p); auto.
    + rewrite IH by (intros K r I; apply H; simpl; auto).
      destruct (Q q) eqn:Eq, (Q p) eqn:Ep; auto. rewrite H in E; simpl; auto. discriminate.
Qed.

(** A sort leaves the order of elements with the same key alone. *)
Lemma sort_keys_stable : forall (Q : Z * Z -> bool) l,
  (forall p q, In p l -> In q l -> Q p = true -> Q q = true -> fst p = fst q) ->
  StronglySorted (fun p q => snd p < snd q) l ->
  filter Q (sort_keys l) = filter Q l.
Proof.
  intros Q l. induction l as [|p l IH]; intros H S; simpl; auto.
  inversion S as [|? ? S' F]; subst. rewrite filter_insert.
  - rewrite IH; auto. intros a b Ia Ib. apply H; right; auto.
  - intros K q I Kq. apply (Permutation_in _ (Permutation_sym (sort_keys_perm l))) in I.
    rewrite Forall_forall in F. specialize (F q I).
    assert (fst p = fst q) by (apply H; simpl; auto). unfold key_leb.
    destruct (Z.ltb_spec (fst p) (fst q)); auto. destruct (Z.eqb_spec (fst p) (fst q)); [|lia].
    destruct (Z.leb_spec (snd p) (snd q)); auto. lia.
Qed.

Lemma enumerate_sorted : forall A (l : list A) k, StronglySorted (fun p q => snd p < snd q) (enumerate_from k l).
Proof.
  assert (G : forall A (l : list A) k p, In p (enumerate_from k l) -> k <= snd p).
  { induction l as [|x l IH]; intros k p I; simpl in *; [tauto|]. destruct I as [<-|I]; simpl; [lia|]. apply IH in I. lia. }
  induction l as [|x l IH]; intro k; simpl; constructor; auto.
  apply Forall_forall. intros p I. apply G in I. simpl. lia.
Qed.

Definition no_row : row := mkR (0, 0) [] [].
Definition pick (t : list row) (p : Z * Z) : row := znth no_row (snd p) t.

Lemma enumerate_pick : forall (l pre : list row) (f : row -> Z),
  map (pick (pre ++ l)) (enumerate_from (zlen pre) (map f l)) = l /\
  Forall (fun p => fst p = f (pick (pre ++ l) p) /\ 0 <= snd p < zlen (pre ++ l)) (enumerate_from (zlen pre) (map f l)).
Proof.
  induction l as [|x l IH]; intros pre f; simpl; [split; auto|].
  specialize (IH (pre ++ [x]) f). rewrite <- app_assoc in IH. simpl in IH.
  replace (zlen (pre ++ [x])) with (zlen pre + 1) in IH by (rewrite zlen_app; reflexivity).
  destruct IH as (A & B). rewrite A.
  assert (X : pick (pre ++ x :: l) (f x, zlen pre) = x).
  { unfold pick. simpl. rewrite znth_app_r, Z.sub_diag by lia. reflexivity. }
  split.
  - f_equal. exact X.
  - constructor; auto. simpl. rewrite X. split; auto. rewrite zlen_app, zlen_cons.
    pose proof (zlen_nonneg pre). pose proof (zlen_nonneg l). lia.
Qed.

Lemma take_pick : forall t l, Forall (fun p => 0 <= snd p < zlen t) l -> take t (map snd l) = Ok (map (pick t) l).
Proof.
  intros t l F. unfold take. induction l as [|p l IH]; simpl; auto. inversion F as [|? ? H F']; subst.
  destruct (py_index_valid _ t (snd p)) as (x & E & N); [lia|]. rewrite E. simpl. rewrite IH; auto. simpl.
  f_equal. f_equal. unfold pick, znth. unfold position in N. destruct (Z.ltb_spec (snd p) 0); [lia|].
  symmetry. apply nth_error_nth. auto.
Qed.

Lemma take_order : forall t (order : list Z),
  order = map snd (sort_keys (enumerate_from 0 (map (fun r => cmp_baseline (r_bl r)) t))) ->
  let l := sort_keys (enumerate_from 0 (map (fun r => cmp_baseline (r_bl r)) t)) in
  take t order = Ok (map (pick t) l) /\ length order = length t /\
  Permutation t (map (pick t) l) /\
  Forall (fun p => fst p = cmp_baseline (r_bl (pick t p)) /\ In (pick t p) t) l.
Proof.
  intros t order -> l. destruct (enumerate_pick t [] (fun r => cmp_baseline (r_bl r))) as (A & B). simpl in A, B.
  unfold zlen in A, B at 1. simpl in A, B.
  pose proof (sort_keys_perm (enumerate_from 0 (map (fun r => cmp_baseline (r_bl r)) t))) as P. fold l in P.
  assert (F : Forall (fun p => fst p = cmp_baseline (r_bl (pick t p)) /\ 0 <= snd p < zlen t) l).
  { rewrite Forall_forall in *. intros p I. apply B. eapply Permutation_in; [symmetry; apply P|auto]. }
  repeat split.
  - apply take_pick. rewrite Forall_forall in *. intros p I. apply F in I. tauto.
  - rewrite map_length. rewrite <- A at 2. rewrite map_length. symmetry. apply Permutation_length. auto.
  - rewrite <- A at 1. apply Permutation_map. auto.
  - rewrite Forall_forall in *. intros p I. apply F in I. split; [tauto|].
    unfold pick. apply znth_In. tauto.
Qed.

Lemma filter_map_comm : forall A B (f : A -> B) P l, filter P (map f l) = map f (filter (fun x => P (f x)) l).
Proof. induction l as [|x l IH]; simpl; auto. destruct (P (f x)); simpl; rewrite IH; auto. Qed.

Lemma bl_order : forall p q, 0 <= fst p < 4096 /\ 0 <= snd p < 4096 -> 0 <= fst q < 4096 /\ 0 <= snd q < 4096 ->
  cmp_baseline p <= cmp_baseline q -> bl_le p q.
Proof. intros [a b] [c d] H1 H2. unfold cmp_baseline, bl_le. cbn [fst snd] in *. lia. Qed.

Lemma order_sorted : forall t, antennas_below 4096 t ->
  sorted_rows t (map (pick t) (sort_keys (enumerate_from 0 (map (fun r => cmp_baseline (r_bl r)) t)))).
Proof.
  intros t AB. destruct (take_order t _ eq_refl) as (_ & _ & P & F).
  destruct (enumerate_pick t [] (fun r => cmp_baseline (r_bl r))) as (A & B). simpl in A, B.
  unfold zlen in A, B at 1. simpl in A, B.
  set (E := enumerate_from 0 (map (fun r => cmp_baseline (r_bl r)) t)) in *.
  unfold antennas_below in AB. rewrite Forall_forall in AB, F, B.
  split; [auto|]. split.
  - pose proof (sort_keys_sorted E) as S. revert S F. generalize (sort_keys E). induction l as [|p l IH]; intros S F; simpl; [constructor|].
    inversion S as [|? ? S' G]; subst. constructor; [apply IH; auto; intros; apply F; right; auto|].
    rewrite Forall_forall in *. intros y I. apply in_map_iff in I. destruct I as (q & <- & I).
    specialize (G q I). destruct (F p (or_introl eq_refl)) as (F1 & F2). destruct (F q (or_intror I)) as (F3 & F4).
    apply bl_order; auto. rewrite <- F1, <- F3. destruct G; lia.
  - intro b. rewrite filter_map_comm. rewrite <- A at 2. rewrite filter_map_comm. f_equal.
    apply sort_keys_stable.
    + intros p q Ip Iq Kp Kq. destruct (B p Ip) as (-> & _). destruct (B q Iq) as (-> & _).
      rewrite andb_true_iff, !Z.eqb_eq in Kp, Kq. unfold cmp_baseline. lia.
    + apply enumerate_sorted.
Qed.

Section V.
Context {PC : Type}.
Implicit Types v w c : vds PC.

Lemma baseline_order_rows : forall h v names t, shows h v names t ->
  baseline_order v = map snd (sort_keys (enumerate_from 0 (map (fun r => cmp_baseline (r_bl r)) t))).
Proof. intros h v names t (B & _). unfold baseline_order. rewrite B, map_map. reflexivity. Qed.

Lemma vds_sort_default : forall h v names t, shows h v names t -> antennas_below 4096 t ->
  exists h' v' t', vds_sort h v None = (h', v', Ok tt) /\ shows h' v' names t' /\ same_rest v v' /\ sorted_rows t t' /\ v_pols v' = v_pols v.
Proof.
  intros h v names t S AB. destruct (take_order t _ eq_refl) as (T & L & P & F).
  destruct (vds_sort_rows h v names t _ _ S T (or_introl L)) as (h' & v' & E & S' & R & VP).
  exists h', v', (map (pick t) (sort_keys (enumerate_from 0 (map (fun r => cmp_baseline (r_bl r)) t)))).
  split; [|split; [|split; [|split]]]; auto.
  - unfold vds_sort in *. rewrite (baseline_order_rows _ _ _ _ S). exact E.
  - apply order_sorted. auto.
Qed.

Lemma vds_sort_given : forall h v names t o, shows h v names t -> valid_order (zlen t) o -> length o = length t \/ names = [] ->
  exists h' v' t', vds_sort h v (Some o) = (h', v', Ok tt) /\ shows h' v' names t' /\ same_rest v v' /\ picks t o t'.
Proof.
  intros h v names t o S V L. destruct (take_valid t o V) as (t' & T & P).
  destruct (vds_sort_rows h v names t _ _ S T L) as (h' & v' & E & S' & R & _). exists h', v', t'. auto.
Qed.

Lemma vds_sort_invalid : forall h v names t o, shows h v names t -> ~ valid_order (zlen t) o ->
  vds_sort h v (Some o) = (h, v, Raise IndexError).
Proof.
  intros h v names t o (B & _) V. unfold vds_sort. rewrite take_invalid; auto. rewrite B, zlen_map. auto.
Qed.

(** An order of the wrong length: the baselines are changed, the visibilities are not. *)
Lemma vds_sort_short : forall h v names t o, shows h v names t -> valid_order (zlen t) o -> length o <> length t -> names <> [] ->
  exists h' v', vds_sort h v (Some o) = (h', v', Raise ValueError) /\
    length (v_bl v') = length o /\ v_pols v' = v_pols v /\ hp h' = hp h.
Proof.
  intros h v names t o S V L NN. pose proof S as (B & U & N & _). destruct (take_valid t o V) as (t' & T & P).
  unfold vds_sort. rewrite B, take_map, T. simpl. rewrite U, take_map, T. simpl.
  destruct (v_pols v) as [|[n r] l] eqn:VP; [exfalso; apply NN; rewrite <- N; reflexivity|]. simpl.
  assert (K : nth_error (v_pols v) 0 = Some (n, r)) by (rewrite VP; reflexivity).
  destruct (shows_col _ _ _ _ _ _ _ S K) as (_ & Q). rewrite Q. rewrite pds_sort_short by auto.
  eexists _, _. split; [reflexivity|]. simpl. rewrite map_length, (take_length _ _ _ _ T). repeat split; auto.
  apply nth_error_ext'. intro k. destruct (Nat.eq_dec k r) as [->|].
  - rewrite upd_same; [rewrite Q; auto|eapply nth_error_lt; eauto].
  - apply upd_other. auto.
Qed.

(** ** Selections *)
Lemma get_uv_range_ok : forall h v names t lo hi, shows h v names t ->
  v_freq v <> [] -> Forall (fun r => length (r_uvw r) = length (v_freq v)) t ->
  exists h' c t', get_uv_range h v lo hi = (h', Ok c) /\ shows h' c names t' /\ same_rest v c /\ fresh_from h c /\ grows h h' /\
    rows_with (fun r => uv_within (length (v_freq v) / 2) lo hi r \/ uv_within (length (v_freq v) / 2) hi lo r) t t'.
Proof.
  intros h v names t lo hi S NF CH. pose proof S as (B & U & _). unfold get_uv_range.
  set (lh := if limit_gtb lo hi then (hi, lo) else (lo, hi)).
  rewrite (surjective_pairing lh). rewrite U.
  set (cen := fun r : row => match nth_error (r_uvw r) (length (v_freq v) / 2) with Some (x, y, _) => (x * x + y * y)%Q | None => 0%Q end).
  assert (NC : (length (v_freq v) / 2 < length (v_freq v))%nat).
  { apply Nat.div_lt; [|lia]. destruct (v_freq v); [congruence|]. simpl. lia. }
  assert (C : collect (map (center_uv v) (map r_uvw t)) = Ok (map cen t)).
  { assert (ONE : forall r, length (r_uvw r) = length (v_freq v) -> center_uv v (r_uvw r) = Ok (cen r)).
    { intros r H. unfold center_uv, py_index, nchan, cen.
      replace (zlen (v_freq v) / 2) with (Z.of_nat (length (v_freq v) / 2)) by (unfold zlen; rewrite Nat2Z.inj_div; reflexivity).
      assert (G : (Z.of_nat (length (v_freq v) / 2) <? 0) = false) by lia. rewrite G, Nat2Z.id.
      destruct (nth_error (r_uvw r) (length (v_freq v) / 2)) as [[[x y] z]|] eqn:E; [rewrite G; reflexivity|].
      apply nth_error_None in E. lia. }
    clear -CH ONE. induction t as [|r t IH]; auto. inversion CH as [|? ? H CH']; subst. simpl.
    rewrite ONE by auto. simpl. rewrite IH by auto. reflexivity. }
  rewrite C, map_map.
  destruct (selected_ok h v names t _ _ S (take_where _ t (fun x => root_geb (cen x) (fst lh) && root_ltb (cen x) (snd lh))))
    as (h' & c & E & S' & R & F & G).
  exists h', c, (filter (fun x => root_geb (cen x) (fst lh) && root_ltb (cen x) (snd lh)) t).
  do 5 (split; [auto|]).
  apply filter_rows_with. intros r I. rewrite Forall_forall in CH. specialize (CH r I).
  destruct (nth_error (r_uvw r) (length (v_freq v) / 2)) as [[[x y] z]|] eqn:EN; [|apply nth_error_None in EN; lia].
  unfold cen. rewrite EN. set (s := (x * x + y * y)%Q).
  assert (GE : forall l, root_geb s l = true <-> at_least l s).
  { intros [|m]; simpl; [split; [discriminate|tauto]|]. rewrite orb_true_iff, !Qle_bool_iff. tauto. }
  assert (LT : forall l, root_ltb s l = true <-> ~ at_least l s).
  { intros [|m]; simpl; [tauto|]. rewrite andb_true_iff, !negb_true_iff.
    rewrite <- !Bool.not_true_iff_false, !Qle_bool_iff. tauto. }
  assert (W : forall a b, root_geb s a && root_ltb s b = true <-> uv_within (length (v_freq v) / 2) a b r).
  { intros a b. rewrite andb_true_iff, GE, LT. unfold uv_within. split.
    - intros (X & Y). exists x, y, z. auto.
    - intros (x' & y' & z' & X & Y & Z). rewrite EN in X. inversion X. subst. auto. }
  assert (V : limit_gtb lo hi = true -> ~ uv_within (length (v_freq v) / 2) lo hi r).
  { intros K (x' & y' & z' & X & Y & Z). rewrite EN in X. inversion X. subst x' y' z'. fold s in Y, Z.
    destruct lo as [|a], hi as [|b]; simpl in *; try discriminate; try tauto.
    rewrite negb_true_iff in K. rewrite <- Bool.not_true_iff_false, Qle_bool_iff in K. apply Qnot_le_lt in K.
    apply Z. destruct Y as [Y|Y]; [left|].
    - apply Qle_trans with a; [|auto]. apply Qlt_le_weak. auto.
    - destruct (Qlt_le_dec 0 b) as [Hb|Hb]; [right|left; auto]. nra. }
  assert (V' : limit_gtb lo hi = false -> ~ uv_within (length (v_freq v) / 2) hi lo r).
  { intros K (x' & y' & z' & X & Y & Z). rewrite EN in X. inversion X. subst x' y' z'. fold s in Y, Z.
    destruct lo as [|a], hi as [|b]; simpl in *; try discriminate; try tauto.
    rewrite negb_false_iff, Qle_bool_iff in K.
    apply Z. destruct Y as [Y|Y]; [left|].
    - apply Qle_trans with b; auto.
    - destruct (Qlt_le_dec 0 a) as [Hb|Hb]; [right|left; auto]. nra. }
  unfold lh. destruct (limit_gtb lo hi); simpl; rewrite W; intuition.
Qed.

Lemma inb_In : forall x l, inb x l = true <-> In x l.
Proof.
  intros x l. unfold inb. rewrite existsb_exists. split.
  - intros (y & I & E). apply Z.eqb_eq in E. subst. auto.
  - intro I. exists x. rewrite Z.eqb_refl. auto.
Qed.

Lemma remove_first_absent : forall x l, ~ In x l -> remove_first x l = l.
Proof.
  induction l as [|y l IH]; intro H; simpl in *; auto. destruct (Z.eqb_spec x y); [subst; tauto|]. rewrite IH; auto.
Qed.

Lemma remove_first_In : forall x l a, NoDup l -> In a (remove_first x l) <-> In a l /\ a <> x.
Proof.
  induction l as [|y l IH]; intros a D; simpl; [tauto|]. inversion D as [|? ? NI D']; subst.
  destruct (Z.eqb_spec x y) as [->|N].
  - split; [intro I; split; [auto|intros ->; auto]|]. intros ([->|I] & K); [congruence|auto].
  - simpl. rewrite IH by auto. intuition congruence.
Qed.

Lemma remove_first_NoDup : forall x l, NoDup l -> NoDup (remove_first x l).
Proof.
  induction l as [|y l IH]; intro D; simpl; auto. inversion D as [|? ? NI D']; subst.
  destruct (Z.eqb_spec x y); auto. constructor; auto. rewrite remove_first_In by auto. tauto.
Qed.

Lemma range_In : forall n a, In a (range 0 n) <-> 0 <= a < n.
Proof.
  intros n a. unfold range. rewrite in_map_iff. split.
  - intros (k & <- & I). apply in_seq in I. lia.
  - intro H. exists (Z.to_nat a). split; [lia|]. apply in_seq. lia.
Qed.

Lemma range_NoDup : forall n, NoDup (range 0 n).
Proof.
  intro n. unfold range. apply FinFun.Injective_map_NoDup; [|apply seq_NoDup]. intros a b H. lia.
Qed.

Lemma merge_keep_spec : forall n inc exc a, In a (merge_keep n inc exc) <-> kept n inc exc a.
Proof.
  intros n [l|] exc a; unfold merge_keep, kept.
  - assert (X : fold_left (fun keep e => if inb e l then keep else remove_first e keep) exc l = l).
    { induction exc as [|e exc IH]; simpl; auto. destruct (inb e l) eqn:E; auto.
      rewrite remove_first_absent; auto. rewrite <- inb_In. congruence. }
    rewrite X. tauto.
  - assert (G : forall exc k, NoDup k -> In a (fold_left (fun keep e => remove_first e keep) exc k) <-> In a k /\ ~ In a exc).
    { clear. induction exc as [|e exc IH]; intros k D; simpl; [tauto|].
      rewrite IH by (apply remove_first_NoDup; auto). rewrite remove_first_In by auto. intuition congruence. }
    rewrite G by apply range_NoDup. rewrite range_In. tauto.
Qed.

Lemma index_from_spec : forall x l k, In x l -> k <= index_from k x l /\
  nth_error l (Z.to_nat (index_from k x l - k)) = Some x /\
  forall b, k <= b < index_from k x l -> nth_error l (Z.to_nat (b - k)) <> Some x.
Proof.
  induction l as [|y l IH]; intros k I; [destruct I|]. simpl. destruct (Z.eqb_spec x y) as [->|N].
  - rewrite Z.sub_diag. repeat split; [lia|]. intros b H. lia.
  - destruct I as [->|I]; [congruence|]. destruct (IH (k + 1) I) as (A & B & C). split; [lia|]. split.
    + replace (Z.to_nat (index_from (k + 1) x l - k)) with (S (Z.to_nat (index_from (k + 1) x l - (k + 1)))) by lia. exact B.
    + intros b H. destruct (Z.eq_dec b k) as [->|].
      * rewrite Z.sub_diag. simpl. congruence.
      * replace (Z.to_nat (b - k)) with (S (Z.to_nat (b - (k + 1)))) by lia. simpl. apply C. lia.
Qed.

Lemma to_indices_spec : forall stands l, at_stands stands l (to_indices stands l).
Proof.
  intros stands l a. unfold to_indices. rewrite in_map_iff. split.
  - intros (s & <- & I). apply filter_In in I. destruct I as (I & K). apply inb_In in K.
    exists s. split; auto. destruct (index_from_spec s stands 0 K) as (A & B & C). unfold stand_of.
    rewrite Z.sub_0_r in B. repeat split; auto. intros b Hb. specialize (C b Hb). rewrite Z.sub_0_r in C. auto.
  - intros (s & I & A & B & C). exists s. assert (K : In s stands) by (eapply nth_error_In; eauto).
    destruct (index_from_spec s stands 0 K) as (A' & B' & C'). rewrite Z.sub_0_r in B'. split.
    + destruct (Z.lt_trichotomy (index_from 0 s stands) a) as [H|[H|H]]; auto.
      * exfalso. apply (C (index_from 0 s stands)); auto.
      * exfalso. apply (C' a); auto. rewrite Z.sub_0_r. auto.
    + apply filter_In. split; auto. apply inb_In. auto.
Qed.

Lemma get_antenna_subset_ok : forall h v names t inc exc (ind : bool) i e stands, shows h v names t ->
  read_include inc = Ok i -> read_exclude exc = Ok e -> v_aa v = Some stands ->
  let i' := if ind then i else option_map (to_indices stands) i in
  let e' := if ind then e else to_indices stands e in
  exists h' c t', get_antenna_subset h v inc exc ind = (h', Ok c) /\ shows h' c names t' /\ same_rest v c /\ fresh_from h c /\ grows h h' /\
    rows_with (fun r => kept (zlen stands) i' e' (fst (r_bl r)) /\ kept (zlen stands) i' e' (snd (r_bl r))) t t'.
Proof.
  intros h v names t inc exc ind i e stands S RI RE AA i' e'. pose proof S as (B & _).
  unfold get_antenna_subset. rewrite RI, RE, AA. fold i' e'. set (keep := merge_keep (zlen stands) i' e').
  rewrite B, map_map.
  rewrite (map_ext _ (fun r => inb (fst (r_bl r)) keep && inb (snd (r_bl r)) keep)) by (intro r; destruct (r_bl r); reflexivity).
  destruct (selected_ok h v names t _ _ S (take_where _ t (fun r => inb (fst (r_bl r)) keep && inb (snd (r_bl r)) keep)))
    as (h' & c & E & S' & R & F & G).
  exists h', c, (filter (fun r => inb (fst (r_bl r)) keep && inb (snd (r_bl r)) keep) t).
  do 5 (split; [auto|]).
  apply filter_rows_with. intros r _. rewrite andb_true_iff, !inb_In. unfold keep. rewrite !merge_keep_spec. tauto.
Qed.

(** ** Independence *)
Lemma rephase_rows_frame : forall (A : aipy PC) jd aa old new u r l k h,
  let h' := fst (rephase_rows A jd aa old new u r l k h) in
  length (hp h') = length (hp h) /\ length (ha h') = length (ha h) /\
  (forall s, s <> r -> nth_error (hp h') s = nth_error (hp h) s) /\
  (forall s, s <> u -> nth_error (ha h') s = nth_error (ha h) s).
Proof.
  intros A jd aa old new u r l. induction l as [|[i j] l IH]; intros k h; simpl; auto.
  destruct (nth_error (hp h) r) as [p|]; simpl; auto.
  destruct (nth_error (p_data p) k) as [x|]; simpl; auto.
  destruct (gen_uvw A jd aa new (j, i)); simpl; auto.
  destruct (unphs2src A jd aa old (j, i) x); simpl; auto.
  destruct (phs2src A jd aa new (j, i) l0); simpl; auto.
  destruct (nth_error (ha h) u) as [a|]; simpl; auto.
  destruct (length a <=? k)%nat; simpl; auto.
  specialize (IH (S k) (set_pol (set_arr h u (upd a k u0)) r (mkP (p_pol p) (upd (p_data p) k l1) (p_wgt p) (p_mask p)))).
  simpl in IH. destruct IH as (H1 & H2 & H3 & H4). rewrite H1, H2, !upd_length. repeat split; auto.
  - intros s N. rewrite H3 by auto. apply upd_other. auto.
  - intros s N. rewrite H4 by auto. apply upd_other. auto.
Qed.

Lemma rephase_pols_frame : forall (A : aipy PC) jd aa old new u bl l h,
  let h' := fst (rephase_pols A jd aa old new u bl l h) in
  length (hp h') = length (hp h) /\ length (ha h') = length (ha h) /\
  (forall s, ~ In s (map snd l) -> nth_error (hp h') s = nth_error (hp h) s) /\
  (forall s, s <> u -> nth_error (ha h') s = nth_error (ha h) s).
Proof.
  intros A jd aa old new u bl l. induction l as [|[n r] l IH]; intro h; simpl; auto.
  pose proof (rephase_rows_frame A jd aa old new u r bl 0 h) as (H1 & H2 & H3 & H4).
  destruct (rephase_rows A jd aa old new u r bl 0 h) as [h1 [[]|e]]; simpl in *.
  - destruct (IH h1) as (K1 & K2 & K3 & K4). rewrite K1, K2. repeat split; auto.
    + intros s N. rewrite K3 by tauto. apply H3. intro. subst. tauto.
    + intros s N. rewrite K4 by auto. auto.
  - repeat split; auto.
Qed.

Lemma rephase_frame : forall (A : aipy PC) h v new,
  let h' := fst (fst (rephase A h v new)) in let v' := snd (fst (rephase A h v new)) in
  v_pols v' = v_pols v /\ v_uvw v' = v_uvw v /\ length (hp h') = length (hp h) /\ length (ha h') = length (ha h) /\
  (forall s, ~ In s (map snd (v_pols v)) -> nth_error (hp h') s = nth_error (hp h) s) /\
  (forall s, s <> v_uvw v -> nth_error (ha h') s = nth_error (ha h) s).
Proof.
  intros A h v new. unfold rephase. destruct (v_pc v) as [old|]; simpl; [|repeat split; auto].
  destruct (v_aa v) as [aa|]; simpl; [|repeat split; auto].
  pose proof (rephase_pols_frame A (v_jd v) aa old new (v_uvw v) (v_bl v) (v_pols v) h) as (H1 & H2 & H3 & H4).
  destruct (rephase_pols A (v_jd v) aa old new (v_uvw v) (v_bl v) (v_pols v) h) as [h1 [[]|e]]; simpl in *; repeat split; auto.
Qed.

Lemma set_name_In : forall l m q n r, In (n, r) (set_name l m q) -> In (n, r) l \/ r = q.
Proof.
  induction l as [|[a b] l IH]; intros m q n r I; simpl in *.
  - destruct I as [I|[]]. inversion I. auto.
  - destruct (String.eqb a m); simpl in I.
    + destruct I as [I|I]; [inversion I; auto|auto].
    + destruct I as [I|I]; [auto|]. apply IH in I. tauto.
Qed.

Lemma do_op_other : forall (A : aipy PC) o h c v names t, shows h v names t -> separate c v ->
  shows (fst (do_op A (h, c) o)) v names t /\ separate (snd (do_op A (h, c) o)) v.
Proof.
  intros A o h c v names t S (SU & SP).
  pose proof S as (_ & U & _). apply nth_error_lt in U.
  assert (NR : forall n r, In (n, r) (v_pols v) -> ~ In r (map snd (v_pols c))).
  { intros n r I J. apply in_map_iff in J. destruct J as ([m q] & E & J). simpl in E. subst q. eapply SP; eauto. }
  destruct o as [order|cc|p]; simpl.
  - pose proof (vds_sort_frame h c order) as (H1 & H2 & H3 & H4 & H5 & H6).
    destruct (vds_sort h c order) as [[h' c'] out]. simpl in *. split.
    + eapply shows_frame; eauto.
    + split; [destruct H2; [congruence|lia]|]. rewrite H1. auto.
  - pose proof (rephase_frame A h c cc) as (H1 & H2 & H3 & H4 & H5 & H6).
    destruct (rephase A h c cc) as [[h' c'] out]. simpl in *. split.
    + eapply shows_frame; eauto.
    + split; [congruence|]. rewrite H1. auto.
  - assert (G : shows (mkH (hp h ++ [p]) (ha h)) v names t).
    { apply (grows_shows h); auto. exists [p], []. rewrite app_nil_r. reflexivity. }
    unfold append. simpl. rewrite nth_error_last. destruct (nbaseline c =? zlen (p_data p)); simpl; split; auto.
    + split; auto. simpl. intros n r m I J. apply set_name_In in I. destruct I as [I|I]; [eapply SP; eauto|].
      pose proof (shows_in_heap h v names t _ _ S J). lia.
    + split; auto.
Qed.

Lemma do_ops_other : forall (A : aipy PC) l h c v names t, shows h v names t -> separate c v ->
  shows (fst (do_ops A (h, c) l)) v names t.
Proof.
  intros A l. induction l as [|o l IH]; intros h c v names t S P; [exact S|].
  destruct (do_op_other A o h c v names t S P) as (S' & P').
  unfold do_ops. change (fold_left (do_op A) (o :: l) (h, c)) with (do_ops A (do_op A (h, c) o) l).
  destruct (do_op A (h, c) o) as [h' c']. apply IH; auto.
Qed.
End V.
