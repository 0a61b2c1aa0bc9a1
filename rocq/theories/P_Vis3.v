(** Appending polarizations and changing the phase center. *)
From Coq Require Import String List ZArith QArith Qcanon Sorted Permutation Bool Lia Lqa.
From Verif Require Import M_Vis S_Vis P_Base P_Vis P_Vis2.
Import ListNotations.
Open Scope Z_scope.

Lemma cell_at_add : forall k r c n, length (r_cells r) = n ->
  cell_at k (add_cell (r, c)) = if (k <? n)%nat then cell_at k r else if (k =? n)%nat then c else no_cell.
Proof.
  intros k r c n L. unfold cell_at, add_cell. simpl. destruct (Nat.ltb_spec k n).
  - apply app_nth1. lia.
  - rewrite app_nth2 by lia. rewrite L. destruct (Nat.eqb_spec k n).
    + subst. rewrite Nat.sub_diag. reflexivity.
    + destruct (k - n)%nat as [|[|m]] eqn:E; try lia; reflexivity.
Qed.

Lemma cell_at_put : forall k j r c, (k < length (r_cells r))%nat ->
  cell_at j (put_cell k (r, c)) = if (j =? k)%nat then c else cell_at j r.
Proof.
  intros k j r c L. unfold cell_at, put_cell. cbn [fst snd r_cells]. destruct (Nat.eqb_spec j k) as [->|N].
  - rewrite app_nth2 by (rewrite firstn_length; lia). rewrite firstn_length.
    replace (k - Nat.min k (length (r_cells r)))%nat with 0%nat by lia. reflexivity.
  - destruct (le_lt_dec k j).
    + rewrite app_nth2 by (rewrite firstn_length; lia). rewrite firstn_length.
      replace (j - Nat.min k (length (r_cells r)))%nat with (S (j - S k)) by lia. simpl.
      rewrite <- (firstn_skipn (S k) (r_cells r)) at 2. rewrite app_nth2 by (rewrite firstn_length; lia).
      f_equal. rewrite firstn_length. lia.
    + rewrite app_nth1 by (rewrite firstn_length; lia). rewrite <- (firstn_skipn k (r_cells r)) at 2.
      rewrite app_nth1; auto. rewrite firstn_length. lia.
Qed.

Lemma put_cell_length : forall k r c, (k < length (r_cells r))%nat -> length (r_cells (put_cell k (r, c))) = length (r_cells r).
Proof.
  intros k r c L. unfold put_cell. cbn [fst snd r_cells]. rewrite app_length, firstn_length. cbn [length]. rewrite skipn_length. lia.
Qed.

Lemma map_combine_fst : forall A B D (f : A -> D) (l : list A) (m : list B), length l = length m ->
  map (fun p => f (fst p)) (combine l m) = map f l.
Proof. induction l as [|x l IH]; intros [|y m] H; simpl in *; try lia; f_equal; auto. Qed.
Lemma map_combine_snd : forall A B D (f : B -> D) (l : list A) (m : list B), length l = length m ->
  map (fun p => f (snd p)) (combine l m) = map f m.
Proof. induction l as [|x l IH]; intros [|y m] H; simpl in *; try lia; f_equal; auto. Qed.

Lemma set_name_old : forall l k n r q, NoDup (map fst l) -> nth_error l k = Some (n, q) -> set_name l n r = upd l k (n, r).
Proof.
  induction l as [|[m s] l IH]; intros [|k] n r q D H; simpl in *; try discriminate; inversion D; subst.
  - inversion H. subst. rewrite String.eqb_refl. reflexivity.
  - destruct (String.eqb_spec m n) as [->|].
    + exfalso. apply H2. apply nth_error_In in H. apply (in_map fst) in H. auto.
    + f_equal. eapply IH; eauto.
Qed.

Section V.
Context {PC : Type}.
Implicit Types v w c : vds PC.

Lemma append_new : forall h v names t n cells, shows h v names t -> length cells = length t ->
  upper n = n -> ~ In n names ->
  let (h', r) := new_pol h (pol_of n cells) in
  exists v', append h' v r = Ok v' /\ shows h' v' (names ++ [n]) (map add_cell (combine t cells)) /\ same_rest v v'.
Proof.
  intros h v names t n cells S LC UN NI. pose proof S as (B & U & N & D & L & H). unfold new_pol.
  unfold append. simpl. rewrite nth_error_last. unfold nbaseline. rewrite B.
  assert (ZE : (zlen (map r_bl t) =? zlen (p_data (pol_of n cells))) = true).
  { apply Z.eqb_eq. etransitivity; [apply zlen_map|]. symmetry. etransitivity; [apply zlen_map|]. exact (f_equal Z.of_nat LC). }
  rewrite ZE. simpl. rewrite UN, set_name_new by (rewrite N; auto).
  eexists. split; [reflexivity|]. split; [|repeat split].
  assert (LN : length (v_pols v) = length names) by (rewrite <- N, map_length; auto).
  split; [|split; [|split; [|split; [|split]]]]; simpl.
  - rewrite B, map_map. simpl. symmetry. apply (map_combine_fst _ _ _ r_bl). auto.
  - rewrite U, map_map. simpl. f_equal. symmetry. apply (map_combine_fst _ _ _ r_uvw). auto.
  - rewrite map_app, N. reflexivity.
  - apply NoDup_Add with (a := n) (l := names); [|split; auto].
    rewrite <- (app_nil_r names) at 1. apply Add_app.
  - rewrite Forall_forall in *. intros x I. apply in_map_iff in I. destruct I as ([r c] & <- & I).
    simpl. rewrite !app_length. simpl. apply in_combine_l in I. rewrite (L r I). auto.
  - intros k name r K.
    assert (IN : forall p, In p (combine t cells) -> length (r_cells (fst p)) = length names).
    { intros [x c] I. apply in_combine_l in I. rewrite Forall_forall in L. apply L. auto. }
    destruct (lt_dec k (length (v_pols v))) as [LK|LK].
    + rewrite nth_error_app1 in K by auto. destruct (H _ _ _ K) as (UP & P). split; auto.
      rewrite nth_error_app1 by (eapply nth_error_lt; eauto). rewrite P. f_equal. rewrite !map_map.
      assert (X : forall p, In p (combine t cells) -> cell_at k (add_cell p) = cell_at k (fst p)).
      { intros [x c] I. rewrite (cell_at_add k x c (length names)) by (apply (IN (x, c)); auto).
        destruct (Nat.ltb_spec k (length names)); [auto|lia]. }
      f_equal.
      * etransitivity; [symmetry; exact (map_combine_fst _ _ _ (fun x => fst (fst (cell_at k x))) t cells (eq_sym LC))|]. apply map_ext_in. intros p I. rewrite X; auto.
      * etransitivity; [symmetry; exact (map_combine_fst _ _ _ (fun x => snd (fst (cell_at k x))) t cells (eq_sym LC))|]. apply map_ext_in. intros p I. rewrite X; auto.
      * etransitivity; [symmetry; exact (map_combine_fst _ _ _ (fun x => snd (cell_at k x)) t cells (eq_sym LC))|]. apply map_ext_in. intros p I. rewrite X; auto.
    + rewrite nth_error_app2 in K by lia.
      destruct (k - length (v_pols v))%nat as [|[|m]] eqn:E; simpl in K; try discriminate. inversion K. subst name r.
      split; auto. rewrite nth_error_last. f_equal. unfold pol_of. rewrite !map_map.
      assert (X : forall p, In p (combine t cells) -> cell_at k (add_cell p) = snd p).
      { intros [x c] I. rewrite (cell_at_add k x c (length names)) by (apply (IN (x, c)); auto).
        destruct (Nat.ltb_spec k (length names)); [lia|]. destruct (Nat.eqb_spec k (length names)); [auto|lia]. }
      f_equal.
      * etransitivity; [symmetry; exact (map_combine_snd _ _ _ (fun c : cell => fst (fst c)) t cells (eq_sym LC))|]. apply map_ext_in. intros p I. rewrite X; auto.
      * etransitivity; [symmetry; exact (map_combine_snd _ _ _ (fun c : cell => snd (fst c)) t cells (eq_sym LC))|]. apply map_ext_in. intros p I. rewrite X; auto.
      * etransitivity; [symmetry; exact (map_combine_snd _ _ _ (fun c : cell => snd c) t cells (eq_sym LC))|]. apply map_ext_in. intros p I. rewrite X; auto.
Qed.

Lemma append_old : forall h v names t n k cells, shows h v names t -> length cells = length t ->
  nth_error names k = Some n ->
  let (h', r) := new_pol h (pol_of n cells) in
  exists v', append h' v r = Ok v' /\ shows h' v' names (map (put_cell k) (combine t cells)) /\ same_rest v v'.
Proof.
  intros h v names t n k cells S LC NK. pose proof S as (B & U & N & D & L & H). unfold new_pol.
  assert (UN : upper n = n) by (eapply shows_upper; eauto; eapply nth_error_In; eauto).
  unfold append. simpl. rewrite nth_error_last. unfold nbaseline. rewrite B.
  assert (ZE : (zlen (map r_bl t) =? zlen (p_data (pol_of n cells))) = true).
  { apply Z.eqb_eq. etransitivity; [apply zlen_map|]. symmetry. etransitivity; [apply zlen_map|]. exact (f_equal Z.of_nat LC). }
  rewrite ZE. simpl. rewrite UN.
  assert (Q : exists q, nth_error (v_pols v) k = Some (n, q)).
  { rewrite <- N, nth_error_map in NK. destruct (nth_error (v_pols v) k) as [[m q]|]; [|discriminate].
    simpl in NK. inversion NK. subst. eauto. }
  destruct Q as (q & Q). rewrite (set_name_old _ k n _ q) by (auto; rewrite N; auto).
  eexists. split; [reflexivity|]. split; [|repeat split].
  assert (LN : length (v_pols v) = length names) by (rewrite <- N, map_length; auto).
  pose proof (nth_error_lt _ _ _ _ Q) as LK.
  assert (IN : forall p, In p (combine t cells) -> length (r_cells (fst p)) = length names).
  { intros [x c] I. apply in_combine_l in I. rewrite Forall_forall in L. apply L. auto. }
  assert (X : forall j p, In p (combine t cells) -> cell_at j (put_cell k p) = if (j =? k)%nat then snd p else cell_at j (fst p)).
  { intros j [x c] I. rewrite cell_at_put; auto. specialize (IN _ I). simpl in IN. lia. }
  split; [|split; [|split; [|split; [|split]]]]; simpl.
  - rewrite B, map_map. simpl. symmetry. apply (map_combine_fst _ _ _ r_bl). auto.
  - rewrite U, map_map. simpl. f_equal. symmetry. apply (map_combine_fst _ _ _ r_uvw). auto.
  - rewrite <- N. apply nth_error_ext'. intro j. rewrite !nth_error_map. destruct (Nat.eq_dec j k) as [->|NE].
    + rewrite upd_same, Q by auto. reflexivity.
    + rewrite upd_other by auto. reflexivity.
  - auto.
  - rewrite Forall_forall in *. intros x I. apply in_map_iff in I. destruct I as ([r c] & <- & I).
    rewrite put_cell_length; specialize (IN _ I); simpl in IN; lia.
  - intros j name r K. destruct (Nat.eq_dec j k) as [->|NE].
    + rewrite upd_same in K by auto. inversion K. subst name r. split; auto.
      rewrite nth_error_last. f_equal. unfold pol_of. rewrite !map_map. f_equal.
      * etransitivity; [symmetry; exact (map_combine_snd _ _ _ (fun c : cell => fst (fst c)) t cells (eq_sym LC))|]. apply map_ext_in. intros p I. rewrite X, Nat.eqb_refl; auto.
      * etransitivity; [symmetry; exact (map_combine_snd _ _ _ (fun c : cell => snd (fst c)) t cells (eq_sym LC))|]. apply map_ext_in. intros p I. rewrite X, Nat.eqb_refl; auto.
      * etransitivity; [symmetry; exact (map_combine_snd _ _ _ (fun c : cell => snd c) t cells (eq_sym LC))|]. apply map_ext_in. intros p I. rewrite X, Nat.eqb_refl; auto.
    + rewrite upd_other in K by auto. destruct (H _ _ _ K) as (UP & P). split; auto.
      rewrite nth_error_app1 by (eapply nth_error_lt; eauto). rewrite P. f_equal. rewrite !map_map.
      assert (NB : (j =? k)%nat = false) by (apply Nat.eqb_neq; auto). f_equal.
      * etransitivity; [symmetry; exact (map_combine_fst _ _ _ (fun x => fst (fst (cell_at j x))) t cells (eq_sym LC))|]. apply map_ext_in. intros p I. rewrite X, NB; auto.
      * etransitivity; [symmetry; exact (map_combine_fst _ _ _ (fun x => snd (fst (cell_at j x))) t cells (eq_sym LC))|]. apply map_ext_in. intros p I. rewrite X, NB; auto.
      * etransitivity; [symmetry; exact (map_combine_fst _ _ _ (fun x => snd (cell_at j x)) t cells (eq_sym LC))|]. apply map_ext_in. intros p I. rewrite X, NB; auto.
Qed.

Lemma append_mismatch : forall h v names t p, shows h v names t -> length (p_data p) <> length t ->
  let (h', r) := new_pol h p in append h' v r = Raise RuntimeError.
Proof.
  intros h v names t p (B & _) LC. unfold new_pol, append. simpl. rewrite nth_error_last. unfold nbaseline. rewrite B, zlen_map.
  unfold zlen. destruct (Z.eqb_spec (Z.of_nat (length t)) (Z.of_nat (length (p_data p)))); [lia|]. reflexivity.
Qed.

(** ** Phase centers *)
Definition new_cell (A : aipy PC) (jd : Q) (aa : list Z) (old new : PC) (b : Z * Z) (c : cell) : cell :=
  match unphs2src A jd aa old b (fst (fst c)) with
  | Some x => match phs2src A jd aa new b x with Some y => (y, snd (fst c), snd c) | None => c end
  | None => c
  end.
(** A row after the loop over its polarization [m]. *)
Definition step_row (A : aipy PC) (jd : Q) (aa : list Z) (old new : PC) (m : nat) (r : row) : row :=
  let b := (snd (r_bl r), fst (r_bl r)) in
  let u := match gen_uvw A jd aa new b with Some u => u | None => r_uvw r end in
  mkR (r_bl r) u (r_cells (put_cell m (r, new_cell A jd aa old new b (cell_at m r)))).

Lemma upd_app : forall A (d l : list A) x y, upd (d ++ x :: l) (length d) y = d ++ y :: l.
Proof. induction d as [|z d IH]; intros; simpl; f_equal; auto. Qed.

Lemma rephase_rows_ok : forall (A : aipy PC) up jd aa old new u m name r todo done h v names,
  sound_aipy A up -> up jd aa old = true -> up jd aa new = true -> u = v_uvw v ->
  nth_error (v_pols v) m = Some (name, r) ->
  v_bl v = map r_bl (done ++ todo) ->
  shows h v names (done ++ todo) ->
  exists h', rephase_rows A jd aa old new u r (map r_bl todo) (length done) h = (h', Ok tt) /\
    shows h' v names (done ++ map (step_row A jd aa old new m) todo).
Proof.
  intros A up jd aa old new u m name r todo. induction todo as [|x todo IH]; intros done h v names SA U1 U2 EU VP VB SH; simpl.
  - exists h. auto.
  - destruct (r_bl x) as [i j] eqn:RB. pose proof SH as (B & U & N & D & L & H).
    destruct (shows_col _ _ _ _ _ _ _ SH VP) as (UN & P). rewrite P. simpl.
    rewrite map_app, nth_error_app2, map_length, Nat.sub_diag by (rewrite map_length; lia). simpl.
    destruct SA as [SG SP SU SB].
    destruct (gen_uvw A jd aa new (j, i)) as [crd|] eqn:EG; [|apply SG in EG; congruence].
    destruct (unphs2src A jd aa old (j, i) (fst (fst (cell_at m x)))) as [z|] eqn:EZ; [|apply SU in EZ; congruence].
    destruct (phs2src A jd aa new (j, i) z) as [y|] eqn:EY; [|apply SP in EY; congruence].
    subst u. rewrite U. rewrite map_length, app_length. simpl.
    destruct (Nat.leb_spec (length done + S (length todo)) (length done)); [lia|].
    set (x' := step_row A jd aa old new m x).
    assert (LM : (m < length names)%nat) by (rewrite <- N, map_length; eapply nth_error_lt; eauto).
    rewrite Forall_forall in L.
    assert (LX : length (r_cells x) = length names) by (apply L; apply in_or_app; simpl; auto).
    assert (CX : forall k, cell_at k x' = if (k =? m)%nat then (y, snd (fst (cell_at m x)), snd (cell_at m x)) else cell_at k x).
    { intro k. unfold x', step_row. unfold cell_at at 1. cbn [r_cells].
      change (nth k (r_cells (put_cell m (x, new_cell A jd aa old new (snd (r_bl x), fst (r_bl x)) (cell_at m x)))) no_cell)
        with (cell_at k (put_cell m (x, new_cell A jd aa old new (snd (r_bl x), fst (r_bl x)) (cell_at m x)))).
      rewrite cell_at_put by lia. rewrite RB. simpl. unfold new_cell. rewrite EZ, EY. reflexivity. }
    set (p := column name (done ++ x :: todo) m). set (h1 := set_pol _ _ _).
    assert (S1 : shows h1 v names (done ++ x' :: todo)).
    { split; [|split; [|split; [|split; [|split]]]]; auto.
      - rewrite B, !map_app. simpl. f_equal.
      - unfold h1. simpl. rewrite upd_same by (eapply nth_error_lt; eauto). f_equal. rewrite !map_app. simpl.
        rewrite <- (map_length r_uvw done), upd_app. f_equal. f_equal. unfold x', step_row. rewrite RB. simpl. rewrite EG. reflexivity.
      - apply Forall_forall. intros w I. apply in_app_or in I. destruct I as [I|[I|I]].
        + apply L. apply in_or_app. auto.
        + subst w. unfold x', step_row. cbn [r_cells]. rewrite put_cell_length by lia. auto.
        + apply L. apply in_or_app. simpl. auto.
      - intros k nm q K. destruct (H _ _ _ K) as (UK & PK). split; auto. unfold h1. simpl.
        destruct (Nat.eq_dec k m) as [->|NE].
        + rewrite VP in K. inversion K. subst nm q. rewrite upd_same by (eapply nth_error_lt; eauto). f_equal.
          assert (E0 : (m =? m)%nat = true) by apply Nat.eqb_refl.
          f_equal; rewrite !map_app; simpl; rewrite CX, E0; simpl; auto.
          rewrite <- (map_length (fun x => fst (fst (cell_at m x))) done), upd_app. reflexivity.
        + assert (NQ : q <> r).
          { intro. subst q. apply NE. pose proof (shows_refs _ _ _ _ SH) as ND. rewrite NoDup_nth_error in ND. apply ND.
            - rewrite map_length. eapply nth_error_lt; eauto.
            - rewrite !nth_error_map, K, VP. reflexivity. }
          rewrite upd_other by auto. rewrite PK. f_equal.
          assert (NB : (k =? m)%nat = false) by (apply Nat.eqb_neq; auto).
          f_equal; rewrite !map_app; simpl; rewrite CX, NB; auto. }
    assert (SA' : sound_aipy A up) by (constructor; auto).
    destruct (IH (done ++ [x']) h1 v names SA' U1 U2 eq_refl VP) as (h' & E & S').
    + rewrite <- app_assoc. simpl. apply S1.
    + rewrite <- app_assoc. exact S1.
    + exists h'. rewrite <- app_assoc in S'. simpl in S'. rewrite app_length in E. simpl in E.
      replace (length done + 1)%nat with (S (length done)) in E by lia. split; auto.
Qed.

(** The rows after the polarizations [ms]. *)
Definition step_rows (A : aipy PC) jd aa old new (ms : list nat) (t : list row) : list row :=
  fold_left (fun t m => map (step_row A jd aa old new m) t) ms t.

Lemma rephase_pols_ok : forall (A : aipy PC) up jd aa old new l k t h v names,
  sound_aipy A up -> up jd aa old = true -> up jd aa new = true ->
  (forall i, nth_error l i = nth_error (v_pols v) (k + i)) ->
  shows h v names t ->
  exists h', rephase_pols A jd aa old new (v_uvw v) (v_bl v) l h = (h', Ok tt) /\
    shows h' v names (step_rows A jd aa old new (seq k (length l)) t).
Proof.
  intros A up jd aa old new l. induction l as [|[name r] l IH]; intros k t h v names SA U1 U2 HL SH; simpl.
  - exists h. auto.
  - assert (VP : nth_error (v_pols v) k = Some (name, r)) by (rewrite <- (Nat.add_0_r k), <- HL; reflexivity).
    pose proof SH as (B & _). rewrite B.
    destruct (rephase_rows_ok A up jd aa old new (v_uvw v) k name r t [] h v names SA U1 U2 eq_refl VP B SH) as (h1 & E & S1).
    simpl in E. rewrite E. rewrite <- B.
    destruct (IH (S k) (map (step_row A jd aa old new k) t) h1 v names SA U1 U2) as (h' & E' & S'); auto.
    { intro i. replace (S k + i)%nat with (k + S i)%nat by lia. rewrite <- HL. reflexivity. }
    exists h'. auto.
Qed.

Lemma step_rows_map : forall (A : aipy PC) jd aa old new ms t,
  step_rows A jd aa old new ms t = map (fun r => fold_left (fun r m => step_row A jd aa old new m r) ms r) t.
Proof.
  intros A jd aa old new ms. unfold step_rows. induction ms as [|m ms IH]; intro t; simpl.
  - rewrite map_id. reflexivity.
  - rewrite IH, map_map. reflexivity.
Qed.

Lemma step_row_moved : forall (A : aipy PC) up jd aa old new r n,
  sound_aipy A up -> up jd aa old = true -> up jd aa new = true -> (0 < n)%nat -> length (r_cells r) = n ->
  moved A jd aa old new r (fold_left (fun r m => step_row A jd aa old new m r) (seq 0 n) r).
Proof.
  intros A up jd aa old new r n SA U1 U2 NP L. destruct SA as [SG SP SU SB].
  set (b := (snd (r_bl r), fst (r_bl r))).
  destruct (gen_uvw A jd aa new b) as [crd|] eqn:EG; [|apply SG in EG; congruence].
  assert (G : forall k, (k <= n)%nat -> let r' := fold_left (fun r m => step_row A jd aa old new m r) (seq 0 k) r in
    r_bl r' = r_bl r /\ (0 < k -> r_uvw r' = crd)%nat /\ length (r_cells r') = n /\
    forall j, cell_at j r' = if (j <? k)%nat then new_cell A jd aa old new b (cell_at j r) else cell_at j r).
  { induction k as [|k IH]; intro LK; cbv zeta.
    - simpl. split; [auto|]. split; [lia|]. auto.
    - rewrite <- Nat.add_1_r, seq_app, fold_left_app. cbn [seq fold_left Nat.add].
      destruct (IH ltac:(lia)) as (I1 & I2 & I3 & I4).
      set (r' := fold_left (fun r m => step_row A jd aa old new m r) (seq 0 k) r) in *.
      split; [auto|]. split; [|split].
      + intros _. unfold step_row. rewrite I1. fold b. rewrite EG. reflexivity.
      + change (length (r_cells (put_cell k (r', new_cell A jd aa old new (snd (r_bl r'), fst (r_bl r')) (cell_at k r')))) = n).
        rewrite put_cell_length by lia. auto.
      + intro j. unfold step_row.
        change (cell_at j (put_cell k (r', new_cell A jd aa old new (snd (r_bl r'), fst (r_bl r')) (cell_at k r'))) =
          if (j <? k + 1)%nat then new_cell A jd aa old new b (cell_at j r) else cell_at j r).
        rewrite cell_at_put by lia. rewrite I1. fold b. rewrite !I4.
        assert (EK : (k <? k)%nat = false) by (apply Nat.ltb_ge; lia). rewrite EK.
        destruct (Nat.eqb_spec j k) as [->|].
        * destruct (Nat.ltb_spec k (k + 1)); [auto|lia].
        * destruct (Nat.ltb_spec j k), (Nat.ltb_spec j (k + 1)); auto; lia. }
  destruct (G n (Nat.le_refl n)) as (G1 & G2 & G3 & G4).
  set (r' := fold_left (fun r m => step_row A jd aa old new m r) (seq 0 n) r) in *.
  split; [auto|]. fold b. split; [rewrite EG, G2; auto|].
  assert (LL : length (r_cells r) = length (r_cells r')) by lia.
  assert (F : forall l l', length l = length l' -> (forall j, (j < length l)%nat -> nth j l' no_cell = new_cell A jd aa old new b (nth j l no_cell)) ->
    Forall2 (fun c c' : cell => snd c' = snd c /\ snd (fst c') = snd (fst c) /\
     exists x, unphs2src A jd aa old b (fst (fst c)) = Some x /\ phs2src A jd aa new b x = Some (fst (fst c'))) l l').
  { clear -SG SP SU SB U1 U2. induction l as [|c l IH]; intros [|c' l'] HL HN; simpl in *; try lia; constructor.
    - specialize (HN 0%nat ltac:(lia)). simpl in HN. subst c'. unfold new_cell.
      destruct (unphs2src A jd aa old b (fst (fst c))) as [x|] eqn:E1; [|apply SU in E1; congruence].
      destruct (phs2src A jd aa new b x) as [y|] eqn:E2; [|apply SP in E2; congruence]. simpl. repeat split; auto. exists x. auto.
    - apply IH; [lia|]. intros j Hj. apply (HN (S j)). lia. }
  apply F; auto. intros j Hj. fold (cell_at j r') (cell_at j r). rewrite G4.
  destruct (Nat.ltb_spec j n); [auto|lia].
Qed.

Lemma Forall2_map_self : forall A B (R : A -> B -> Prop) (f : A -> B) l, (forall x, In x l -> R x (f x)) -> Forall2 R l (map f l).
Proof. induction l as [|x l IH]; intro H; simpl; constructor; [apply H; simpl; auto|]. apply IH. intros. apply H. right. auto. Qed.

Lemma rephase_ok : forall (A : aipy PC) up h v names t old new aa,
  sound_aipy A up -> shows h v names t -> v_pc v = Some old -> v_aa v = Some aa ->
  up (v_jd v) aa old = true -> up (v_jd v) aa new = true -> names <> [] ->
  exists h' v' t', rephase A h v new = (h', v', Ok tt) /\ shows h' v' names t' /\ v_pc v' = Some new /\
    v_jd v' = v_jd v /\ v_freq v' = v_freq v /\ v_aa v' = v_aa v /\ v_extra v' = v_extra v /\
    Forall2 (moved A (v_jd v) aa old new) t t'.
Proof.
  intros A up h v names t old new aa SA S PC0 AA U1 U2 NN. unfold rephase. rewrite PC0, AA.
  destruct (rephase_pols_ok A up (v_jd v) aa old new (v_pols v) 0 t h v names SA U1 U2 (fun i => eq_refl) S) as (h' & E & S').
  rewrite E. exists h', (with_pc v new), (step_rows A (v_jd v) aa old new (seq 0 (length (v_pols v))) t).
  split; [auto|]. split; [exact S'|]. do 5 (split; [auto|]). rewrite step_rows_map.
  pose proof S as (_ & _ & N & _ & L & _). rewrite Forall_forall in L.
  apply Forall2_map_self. intros r I.
  assert (LV : length (v_pols v) = length names) by (rewrite <- N, map_length; auto). rewrite LV.
  eapply step_row_moved; eauto. destruct names; [congruence|simpl; lia].
Qed.

(** Moving back restores the visibilities. *)
Lemma moved_back : forall (A : aipy PC) up jd aa old new r r' r'', sound_aipy A up ->
  moved A jd aa old new r r' -> moved A jd aa new old r' r'' ->
  r_bl r'' = r_bl r /\ r_cells r'' = r_cells r /\ gen_uvw A jd aa old (snd (r_bl r), fst (r_bl r)) = Some (r_uvw r'').
Proof.
  intros A up jd aa old new r r' r'' [SG SP SU SB] (B1 & G1 & F1) (B2 & G2 & F2).
  split; [congruence|]. rewrite B1 in *. split; [|auto].
  revert F1 F2. generalize (r_cells r) (r_cells r') (r_cells r''). clear -SB.
  intros l l' l'' F1. revert l''. induction F1 as [|c c' l l' (E1 & E2 & x & X1 & X2) F1 IH]; intros l'' F2.
  - inversion F2. auto.
  - inversion F2 as [|? c'' ? ? (E3 & E4 & y & Y1 & Y2) F2']; subst. f_equal; auto.
    apply SB in X2. rewrite X2 in Y1. inversion Y1. subst y. apply SB in X1. rewrite X1 in Y2. inversion Y2.
    destruct c as [[a b] d], c'' as [[a' b'] d']; simpl in *. congruence.
Qed.

(** A source below the horizon: nothing is changed. *)
Lemma rephase_down : forall (A : aipy PC) up h v names t old new aa,
  sound_aipy A up -> shows h v names t -> v_pc v = Some old -> v_aa v = Some aa ->
  up (v_jd v) aa old = false \/ up (v_jd v) aa new = false -> names <> [] -> t <> [] ->
  rephase A h v new = (h, v, Raise RuntimeError).
Proof.
  intros A up h v names t old new aa [SG SP SU SB] S PC0 AA DN NN NT. unfold rephase. rewrite PC0, AA.
  pose proof S as (B & U & N & _). destruct (v_pols v) as [|[n r] l] eqn:VP; [exfalso; apply NN; rewrite <- N; reflexivity|].
  assert (K : nth_error (v_pols v) 0 = Some (n, r)) by (rewrite VP; reflexivity).
  destruct (shows_col _ _ _ _ _ _ _ S K) as (_ & P). rewrite B. destruct t as [|x t]; [congruence|]. simpl.
  destruct (r_bl x) as [i j]. rewrite P. simpl.
  destruct (gen_uvw A (v_jd v) aa new (j, i)) as [crd|] eqn:EG; [|reflexivity].
  destruct (unphs2src A (v_jd v) aa old (j, i) (fst (fst (cell_at 0 x)))) as [z|] eqn:EZ; [|reflexivity].
  destruct (phs2src A (v_jd v) aa new (j, i) z) as [y|] eqn:EY; [|reflexivity].
  exfalso. destruct DN as [DN|DN].
  - apply <- SU in DN. rewrite DN in EZ. discriminate.
  - apply <- SG in DN. rewrite DN in EG. discriminate.
Qed.
End V.
