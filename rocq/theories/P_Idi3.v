(** What the calls before write() leave in the writer. *)
From Coq Require Import String.
From Coq Require Import List ZArith QArith Qabs Sorted Permutation Bool Lia Lqa.
From Verif Require Import M_Idi S_Idi P_Base P_Vis P_Vis2 P_Idi P_Idi2.
Import ListNotations.
Open Scope Z_scope.

(** ** Polarizations *)
Lemma code_name_ok : forall c nm, code_name c = Some nm -> stokes_code nm = Ok c /\ numeric_stokes c = Ok nm.
Proof.
  intros c nm. unfold code_name. destruct (find _ _) as [[c' nm']|] eqn:K; [|discriminate].
  apply find_some in K. destruct K as (I & K). apply Z.eqb_eq in K. cbn [fst] in K. subst c'. intro H. injection H as <-.
  cbn [In] in I. repeat (destruct I as [I|I]; [injection I as <- <-; split; reflexivity|]). destruct I.
Qed.
Lemma stands_for_ok : forall p c, stands_for p c -> code_of p = Ok c.
Proof. intros [n|c'] c H; simpl in *; [apply code_name_ok; auto|congruence]. Qed.

Lemma add_stokes_ok : forall pols have, (forall p, In p pols -> exists c, code_of p = Ok c) -> NoDup have ->
  exists l, add_stokes have pols = (l, Ok tt) /\ NoDup l /\ (forall c, In c l <-> In c have \/ exists p, In p pols /\ code_of p = Ok c).
Proof.
  induction pols as [|p pols IH]; intros have H N; simpl.
  - exists have. split; auto. split; auto. intro c. split; auto. intros [K|(p & [] & _)]; auto.
  - destruct (H p (or_introl eq_refl)) as (c & Hc). rewrite Hc.
    destruct (IH (if inb c have then have else have ++ [c])) as (l & Hl & Nl & Il).
    + intros q I. apply H. right. auto.
    + destruct (inb c have) eqn:K; auto. apply (Permutation_NoDup (Permutation_cons_append have c)). constructor; auto.
      intro I. unfold inb in K. rewrite (proj2 (existsb_exists _ _)) in K; [discriminate|]. exists c. split; auto. apply Z.eqb_refl.
    + exists l. split; auto. split; auto. intro x. rewrite Il.
      assert (A : In x (if inb c have then have else have ++ [c]) <-> In x have \/ x = c).
      { destruct (inb c have) eqn:K.
        - unfold inb in K. apply existsb_exists in K. destruct K as (y & I & K). apply Z.eqb_eq in K. subst y.
          split; auto. intros [I' | ->]; auto.
        - rewrite in_app_iff. simpl. intuition congruence. }
      rewrite A. split.
      * intros [[K | ->] | (q & I & K)]; auto; right; [exists p|exists q]; auto.
      * intros [K|(q & [<-|I] & K)]; auto; [left; right; congruence|right; exists q; auto].
Qed.

Lemma insert_z_perm : forall x l, Permutation (x :: l) (insert_z x l).
Proof. induction l as [|y l IH]; simpl; auto. destruct (x <=? y); auto. rewrite perm_swap. constructor. auto. Qed.
Lemma sort_z_perm : forall l, Permutation l (sort_z l).
Proof. induction l as [|x l IH]; simpl; auto. rewrite <- insert_z_perm. constructor. auto. Qed.
Lemma insert_z_sorted : forall x l, StronglySorted Z.le l -> StronglySorted Z.le (insert_z x l).
Proof.
  induction l as [|y l IH]; intro H; simpl; [repeat constructor|]. inversion H as [|? ? H1 H2]; subst. rewrite Forall_forall in H2.
  destruct (Z.leb_spec x y).
  - constructor; auto. constructor; auto. apply Forall_forall. intros z I. specialize (H2 z I). lia.
  - constructor; auto. apply Forall_forall. intros z I. apply (Permutation_in _ (Permutation_sym (insert_z_perm x l))) in I.
    destruct I as [<-|I]; auto. lia.
Qed.
Lemma sort_z_sorted : forall l, StronglySorted Z.le (sort_z l).
Proof. induction l; simpl; [constructor|]. apply insert_z_sorted. auto. Qed.
Lemma sort_z_of : forall m l, Permutation l m -> StronglySorted Z.lt m -> sort_z l = m.
Proof.
  intros m l Pm Sm. assert (Pm' : Permutation (sort_z l) m) by (rewrite <- sort_z_perm; auto).
  pose proof (sort_z_sorted l) as Sl. clear Pm. revert m Pm' Sm Sl. induction (sort_z l) as [|x s IH]; intros m Pm Sm Sl.
  - apply Permutation_nil in Pm. auto.
  - destruct m as [|y m]; [apply Permutation_sym, Permutation_nil in Pm; discriminate|].
    inversion Sl as [|? ? Sl' Fl]; subst. inversion Sm as [|? ? Sm' Fm]; subst. rewrite Forall_forall in Fl, Fm.
    assert (K : x = y).
    { assert (Ix : In x (y :: m)) by (eapply Permutation_in; [apply Pm|left; auto]).
      assert (Iy : In y (x :: s)) by (eapply Permutation_in; [apply Permutation_sym, Pm|left; auto]).
      destruct Ix as [->|Ix]; auto. destruct Iy as [->|Iy]; auto. specialize (Fl y Iy). specialize (Fm x Ix). lia. }
    subst y. f_equal. apply IH; auto. eapply Permutation_cons_inv; eauto.
Qed.

(** The codes of an axis are those the reader makes from the first one. *)
Definition step_of (c0 : Z) : Z := if c0 <? 0 then -1 else 1.
Lemma axis_tail : forall c c' l, axis (c :: c' :: l) -> axis (c' :: l) /\ c' = c + step_of c /\ step_of c' = step_of c.
Proof.
  intros c c' l (_ & Sg & H). assert (E : c' = c + Z.sgn c) by (apply (H O); reflexivity).
  assert (G : Z.sgn c = step_of c).
  { unfold step_of. destruct Sg as [Sg|Sg]; inversion Sg as [|? ? S1 S2]; subst; destruct (Z.ltb_spec c 0); lia. }
  split; [|split; [lia|]].
  - split; [discriminate|]. split; [destruct Sg as [Sg|Sg]; inversion Sg; subst; auto|]. intros k a b Ha Hb. apply (H (S k)); auto.
  - unfold step_of in *. destruct Sg as [Sg|Sg]; inversion Sg as [|? ? S1 S2]; subst; inversion S2; subst; destruct (Z.ltb_spec c 0); destruct (Z.ltb_spec (c + Z.sgn c) 0); lia.
Qed.
Lemma axis_form : forall l c, axis (c :: l) -> forall k, (k <= length l)%nat -> nth k (c :: l) 0 = c + step_of c * Z.of_nat k.
Proof.
  induction l as [|c' l IH]; intros c Ax k Hk.
  - destruct k; [simpl; lia|simpl in Hk; lia].
  - destruct (axis_tail _ _ _ Ax) as (Ax' & E & E'). destruct k as [|k]; [simpl; lia|].
    change (nth (S k) (c :: c' :: l) 0) with (nth k (c' :: l) 0). simpl in Hk. rewrite IH by (auto; lia). rewrite E'. lia.
Qed.
Lemma axis_range : forall c l, axis (c :: l) -> map (fun k => c + step_of c * k) (range 0 (zlen (c :: l))) = c :: l.
Proof.
  intros c l Ax. unfold range. rewrite Z.sub_0_r, map_map. unfold zlen. rewrite Nat2Z.id.
  apply nth_ext with 0 0; [rewrite map_length, seq_length; auto|]. intros k Hk. rewrite map_length, seq_length in Hk.
  rewrite (axis_form l c Ax k) by (simpl in Hk; lia).
  rewrite (nth_indep _ 0 ((fun x : nat => c + step_of c * (0 + Z.of_nat x)) O)) by (rewrite map_length, seq_length; auto).
  rewrite (map_nth (fun x : nat => c + step_of c * (0 + Z.of_nat x))), seq_nth by auto. simpl. lia.
Qed.
Lemma axis_sorted : forall l c, axis (c :: l) -> if c <? 0 then StronglySorted Z.lt (rev (c :: l)) else StronglySorted Z.lt (c :: l).
Proof.
  assert (G : forall l c, axis (c :: l) -> Forall (fun x => if c <? 0 then x < c else c < x) l).
  { intros l c Ax. apply Forall_forall. intros x I. destruct (In_nth l x 0 I) as (k & Hk & <-).
    change (nth k l 0) with (nth (S k) (c :: l) 0). rewrite (axis_form l c Ax) by lia. unfold step_of. destruct (c <? 0); lia. }
  assert (A : forall l x, StronglySorted Z.lt l -> Forall (fun y => y < x) l -> StronglySorted Z.lt (l ++ [x])).
  { induction l as [|y l IH]; intros x S F; simpl; [repeat constructor|]. inversion S; subst. inversion F; subst. constructor; auto.
    apply Forall_app. split; auto. }
  induction l as [|c' l IH]; intros c Ax.
  - destruct (c <? 0); simpl; repeat constructor.
  - destruct (axis_tail _ _ _ Ax) as (Ax' & E & E'). specialize (IH c' Ax'). specialize (G _ _ Ax).
    assert (Es : (c' <? 0) = (c <? 0)) by (unfold step_of in E'; destruct (c' <? 0), (c <? 0); auto; discriminate).
    rewrite Es in IH. destruct (c <? 0).
    + change (rev (c :: c' :: l)) with (rev (c' :: l) ++ [c]). apply A; auto. apply Forall_rev. auto.
    + constructor; auto.
Qed.
Lemma axis_nodup : forall codes, axis codes -> NoDup codes.
Proof.
  intros [|c l] Ax; [constructor|]. pose proof (axis_sorted l c Ax) as S.
  assert (G : forall m, StronglySorted Z.lt m -> NoDup m).
  { induction 1 as [|x m S' IH F]; constructor; auto. intro I. rewrite Forall_forall in F. specialize (F x I). lia. }
  destruct (c <? 0); [|auto]. apply (Permutation_NoDup (Permutation_sym (Permutation_rev _))). auto.
Qed.
Lemma axis_abs : forall codes p q, axis codes -> (p < q < length codes)%nat -> Z.abs (nth p codes 0) < Z.abs (nth q codes 0).
Proof.
  intros [|c l] p q Ax Hq; [simpl in Hq; lia|]. simpl in Hq. rewrite !(axis_form l c Ax) by lia.
  destruct Ax as (_ & S & _). unfold step_of. destruct S as [S|S]; inversion S; subst; destruct (Z.ltb_spec c 0); lia.
Qed.
Lemma axis_names : forall codes, axis codes -> Forall (fun c => exists nm, code_name c = Some nm) codes.
Proof.
  intros codes (_ & S & _). apply Forall_forall. intros c I.
  assert (R : c = 1 \/ c = 2 \/ c = 3 \/ c = 4 \/ c = -1 \/ c = -2 \/ c = -3 \/ c = -4 \/ c = -5 \/ c = -6 \/ c = -7 \/ c = -8).
  { destruct S as [S|S]; rewrite Forall_forall in S; specialize (S c I); lia. }
  repeat (destruct R as [-> | R]; [eexists; reflexivity|]). rewrite R. eexists. reflexivity.
Qed.

Section Setup.
Context {V W U P X : Type} (E : sky V W U P).
Notation wr := (writer V W P X).
Notation integration := (@integration V W P).

Lemma set_stokes_ok : forall k mode pols codes, axis codes -> names_axis pols codes ->
  set_stokes (set_mode (new_writer k) mode : wr) pols = (mkWr k mode codes (zlen codes) 0 0%Q 0%Q [] [] [], Ok tt).
Proof.
  intros k mode pols codes Ax (H1 & H2).
  destruct (add_stokes_ok pols []) as (l & Hl & Nl & Il).
  { intros p I. destruct (H1 p I) as (c & _ & S). exists c. apply stands_for_ok. auto. }
  { constructor. }
  assert (Same : forall c, In c l <-> In c codes).
  { intro c. rewrite Il. split.
    - intros [[]|(p & I & Hp)]. destruct (H1 p I) as (c' & I' & S). apply stands_for_ok in S. congruence.
    - intro I. right. destruct (H2 c I) as (p & Ip & S). exists p. split; auto. apply stands_for_ok. auto. }
  unfold set_stokes. change (w_stokes (set_mode (new_writer k) mode : wr)) with (@nil Z). rewrite Hl.
  destruct codes as [|c0 cs]; [destruct Ax; congruence|]. pose proof (axis_sorted cs c0 Ax) as S. pose proof (axis_nodup _ Ax) as N.
  assert (Pm : Permutation l (c0 :: cs)) by (apply NoDup_Permutation; auto).
  destruct (Z.ltb_spec c0 0) as [L|L].
  - rewrite (sort_z_of (rev (c0 :: cs)) l); auto; [|rewrite <- Permutation_rev; auto].
    destruct (rev (c0 :: cs)) as [|x r] eqn:R; [apply (f_equal (@length Z)) in R; rewrite rev_length in R; discriminate|].
    assert (Lx : x < 0).
    { assert (I : In x (c0 :: cs)) by (apply in_rev; rewrite R; left; auto). destruct Ax as (_ & Sg & _). 
      destruct Sg as [Sg|Sg]; [inversion Sg; subst; lia|]. rewrite Forall_forall in Sg. specialize (Sg x I). lia. }
    destruct (Z.ltb_spec x 0); [|lia]. rewrite <- R, rev_involutive. reflexivity.
  - rewrite (sort_z_of (c0 :: cs) l); auto. destruct (Z.ltb_spec c0 0); [lia|]. reflexivity.
Qed.

(** ** Frequencies *)
Definition fits_band (ref width : Q) (b : list Q) (bd : band) : Prop := (ref + b_off bd == nth 0 b 0 /\ b_width bd == width)%Q.
Lemma set_frequency_more : forall width nchan bands k mode codes ref wd fs, (0 < nchan)%nat -> (wd == width)%Q ->
  Forall (fun b => length b = nchan) bands ->
  exists fs', fold_left (fun w b => then_ w (fun w => set_frequency w b)) bands
                (mkWr k mode codes (zlen codes) (Z.of_nat nchan) ref wd fs [] [] : wr, Ok tt)
              = (mkWr k mode codes (zlen codes) (Z.of_nat nchan) ref wd (fs ++ fs') [] [], Ok tt) /\ Forall2 (fits_band ref width) bands fs'.
Proof.
  intros width nchan bands. induction bands as [|b bands IH]; intros k mode codes ref wd fs Hn Hw F; simpl.
  - exists []. rewrite app_nil_r. split; auto.
  - inversion F as [|? ? L F']; subst. destruct b as [|f0 b]; [simpl in Hn; lia|].
    unfold then_ at 2. cbn [snd fst]. unfold set_frequency. cbn [w_nchan w_ref w_width w_freq].
    destruct (Z.eqb_spec (Z.of_nat (length (f0 :: b))) 0); [simpl in *; lia|].
    change (zlen (f0 :: b)) with (Z.of_nat (length (f0 :: b))). rewrite Z.eqb_refl. cbn [negb].
    unfold with_freq. cbn [w_kind w_mode w_stokes w_nstokes w_array w_data].
    destruct (IH k mode codes ref wd (fs ++ [mkB (f0 - ref)%Q wd (Qabs (last (f0 :: b) 0%Q - f0)%Q)])) as (fs' & H1 & H2); auto.
    eexists. split.
    + etransitivity; [apply H1|]. rewrite <- app_assoc. reflexivity.
    + simpl. constructor; auto. unfold fits_band. cbn [b_off b_width nth]. split; [ring|auto].
Qed.
Lemma set_frequency_ok : forall width nchan bands k mode codes, regular width nchan bands ->
  exists ref wd fs, fold_left (fun w b => then_ w (fun w => set_frequency w b)) bands
                (mkWr k mode codes (zlen codes) 0 0%Q 0%Q [] [] [] : wr, Ok tt)
              = (mkWr k mode codes (zlen codes) (Z.of_nat nchan) ref wd fs [] [], Ok tt) /\ Forall2 (fits_band ref width) bands fs.
Proof.
  intros width nchan bands k mode codes (N0 & Hn & Hw & F). destruct bands as [|b bands]; [congruence|].
  inversion F as [|? ? (L & Fb) F']; subst. destruct b as [|f0 [|f1 b]]; [simpl in Hn; lia|simpl in Hn; lia|].
  set (nch := length (f0 :: f1 :: b)) in *.
  assert (Wd : (Qabs (f1 - f0) == width)%Q).
  { pose proof (Fb 1%nat Hn) as K. cbn [nth] in K. change (inject_Z (Z.of_nat 1)) with 1%Q in K.
    rewrite Qabs_pos; [rewrite K; ring|]. rewrite K. lra. }
  simpl fold_left. unfold then_ at 2. cbn [snd fst]. unfold set_frequency. cbn [w_nchan w_freq Z.eqb].
  unfold with_freq. cbn [w_kind w_mode w_stokes w_nstokes w_array w_data app].
  change (zlen (f0 :: f1 :: b)) with (Z.of_nat nch).
  destruct (set_frequency_more width nch bands k mode codes f0 (Qabs (f1 - f0)%Q) [mkB 0%Q (Qabs (f1 - f0)%Q) (Qabs (last (f0 :: f1 :: b) 0%Q - f0)%Q)])
    as (fs' & H1 & H2); auto; [lia|eapply Forall_impl; [|apply F']; intros x [H _]; auto|].
  exists f0, (Qabs (f1 - f0)%Q), ([mkB 0%Q (Qabs (f1 - f0)%Q) (Qabs (last (f0 :: f1 :: b) 0%Q - f0)%Q)] ++ fs'). split; auto.
  simpl. constructor; auto. unfold fits_band. cbn [b_off b_width nth]. split; [ring|auto].
Qed.

(** ** Data sets *)
Definition ds_of_call (c : @call V W P) (code : Z) : dataset V W P := mkD (c_time c) (c_int c) (c_bl c) (c_vis c) (c_wgt c) code (c_src c).
Lemma add_calls_ok : forall calls l k mode codes n nchan ref wd fs arr done, Forall2 (fun c d => exists code, code_of (c_pol c) = Ok code /\ d = ds_of_call c code) calls l ->
  fold_left (fun w c => then_ w (fun w => add_call w c)) calls (mkWr k mode codes n nchan ref wd fs arr done : wr, Ok tt)
  = (mkWr k mode codes n nchan ref wd fs arr (done ++ l), Ok tt).
Proof.
  induction calls as [|c calls IH]; intros l k mode codes n nchan ref wd fs arr done F; inversion F as [|? d ? l' (code & Hp & ->) F']; subst; simpl.
  - rewrite app_nil_r. auto.
  - unfold then_ at 2. cbn [snd fst]. unfold add_call, add_data_set. rewrite Hp. unfold with_data. cbn [w_kind w_mode w_stokes w_nstokes w_nchan w_ref w_width w_freq w_array w_data].
    etransitivity; [apply IH; eauto|]. rewrite <- app_assoc. reflexivity.
Qed.
End Setup.
