(** Stream description functions of cor.py and tbx.py. *)
From Coq Require Import List ZArith Lia Bool.
From Verif Require Import M_Cor S_Cor S_CorRun P_Drx P_Drx2 P_Cor P_Tbx.
Import ListNotations.
Open Scope Z_scope.
Ltac Zify.zify_post_hook ::= Z.div_mod_to_equations.

Lemma cor_history_coherent : forall st, cor_history st -> cc_coherent st.
Proof.
  induction 1 as [|st f st' f' r H IH Hp HB HR]; [split; [simpl; tauto|left; reflexivity]|].
  exact (proj1 (proj2 (read_cor_total _ _ _ _ _ IH Hp HB HR))).
Qed.
Lemma tbx_history_coherent : forall st, tbx_history st -> tc_coherent st.
Proof.
  induction 1 as [|st f st' f' r H IH Hp HB HR]; [left; reflexivity|].
  exact (proj1 (proj2 (read_tbx_total _ _ _ _ _ IH Hp HB HR))).
Qed.
Lemma assumed_bytes_eq : forall st, assumed_bytes st = tc_bytes st.
Proof.
  intro st. unfold assumed_bytes, tc_bytes, tc_mode. destruct (tbx_dispatch (tc_nstand st) (tc_nchan st)) as [ns nc].
  cbn [fst snd]. unfold tbx_size. lia.
Qed.

Lemma restore_eq : forall f f1, 0 <= f_pos f -> restore f f1 = mkFile (f_data f1) (f_pos f).
Proof.
  intros f f1 H. unfold restore, f_seek, f_tell. change (0 =? 0) with true. cbv iota.
  destruct (Z.ltb_spec (f_pos f) 0); [lia|reflexivity].
Qed.
Lemma f_rel_data : forall d f, f_data (f_rel d f) = f_data f.
Proof.
  intros. unfold f_rel, f_seek. cbn.
  destruct (f_pos f + d <? 0); reflexivity.
Qed.
Lemma f_rel_pos : forall d f, 0 <= d -> 0 <= f_pos f -> f_pos (f_rel d f) = f_pos f + d.
Proof.
  intros d f H H2. unfold f_rel, f_seek. cbn. destruct (Z.ltb_spec (f_pos f + d) 0); [lia|reflexivity].
Qed.

Section Any.
Context {St A : Type} (reader : St -> file -> St * file * rd A) (Inv : St -> Prop).
Context (is_kind : A -> bool) (chan nchan : A -> Z).
Context (Hstep : forall st f st' f' r, Inv st -> 0 <= f_pos f -> bytes_ok (f_data f) -> reader st f = (st', f', r) ->
   Inv st' /\ f_data f' = f_data f /\ 0 <= f_pos f').

Lemma find_frame_keeps : forall n st f st' f' r, Inv st -> 0 <= f_pos f -> bytes_ok (f_data f) ->
  find_frame reader is_kind n st f = (st', f', r) -> Inv st' /\ f_data f' = f_data f.
Proof.
  induction n as [|n IH]; intros st f st' f' r HI Hp HB H; cbn [find_frame] in H; [inversion H; subst; auto|].
  destruct (reader st f) as [[st1 f1] [a| |loc]] eqn:E.
  - destruct (Hstep _ _ _ _ _ HI Hp HB E) as (H1 & H2 & H3). destruct (is_kind a); [inversion H; subst; auto|].
    apply IH in H; auto; [|rewrite H2; auto]. rewrite <- H2. auto.
  - destruct (Hstep _ _ _ _ _ HI Hp HB E) as (H1 & H2 & H3). inversion H; subst; auto.
  - destruct (Hstep _ _ _ _ _ HI Hp HB E) as (H1 & H2 & H3).
    apply IH in H; auto; rewrite ?f_rel_data, ?f_rel_pos, ?H2 in *; try lia; auto.
Qed.
Lemma chan_loop_keeps : forall n st f seen per st' f' s p, Inv st -> 0 <= f_pos f -> bytes_ok (f_data f) ->
  chan_loop reader chan nchan n st f seen per = (st', f', s, p) -> Inv st' /\ f_data f' = f_data f.
Proof.
  induction n as [|n IH]; intros st f seen per st' f' s p HI Hp HB H; cbn [chan_loop] in H; [inversion H; subst; auto|].
  destruct (reader st f) as [[st1 f1] r] eqn:E. destruct (Hstep _ _ _ _ _ HI Hp HB E) as (H1 & H2 & H3).
  destruct r; try (inversion H; subst; auto; fail). apply IH in H; auto; rewrite H2 in *; auto.
Qed.
Lemma obs_loop_keeps : forall n st f seen st' f' s, Inv st -> 0 <= f_pos f -> bytes_ok (f_data f) ->
  obs_loop_tbx reader is_kind chan n st f seen = (st', f', s) -> Inv st' /\ f_data f' = f_data f.
Proof.
  induction n as [|n IH]; intros st f seen st' f' s HI Hp HB H; cbn [obs_loop_tbx] in H; [inversion H; subst; auto|].
  destruct (reader st f) as [[st1 f1] r] eqn:E. destruct (Hstep _ _ _ _ _ HI Hp HB E) as (H1 & H2 & H3).
  destruct r; try (inversion H; subst; auto; fail).
  - apply IH in H; auto; rewrite H2 in *; auto.
  - apply IH in H; auto; rewrite ?f_rel_data, ?f_rel_pos, ?H2 in *; try lia; auto.
Qed.
End Any.

Lemma cor_step_keeps : forall st f st' f' r, cc_coherent st -> 0 <= f_pos f -> bytes_ok (f_data f) -> read_cor st f = (st', f', r) ->
   cc_coherent st' /\ f_data f' = f_data f /\ 0 <= f_pos f'.
Proof.
  intros st f st' f' r HC Hp HB H. destruct (read_cor_total _ _ _ _ _ HC Hp HB H) as (H1 & H2 & H3).
  split; [auto|]. split; [auto|]. pose proof (zlen_nonneg (f_data f)).
  destruct r as [d| |loc].
  - destruct H3 as (-> & E & _). rewrite E. pose proof (cor_size_pos _ (proj1 H2)). lia.
  - lia.
  - destruct H3 as (_ & -> & _). auto.
Qed.
Lemma tbx_step_keeps : forall st f st' f' r, tc_coherent st -> 0 <= f_pos f -> bytes_ok (f_data f) -> read_tbx st f = (st', f', r) ->
   tc_coherent st' /\ f_data f' = f_data f /\ 0 <= f_pos f'.
Proof.
  intros st f st' f' r HC Hp HB H. destruct (read_tbx_total _ _ _ _ _ HC Hp HB H) as (H1 & H2 & H3).
  split; [auto|]. split; [auto|]. pose proof (zlen_nonneg (f_data f)). destruct (tbx_header_mode f) as [ns nc].
  destruct r as [d| |loc].
  - destruct H3 as (-> & HM & _). pose proof (tbx_size_pos _ _ HM). lia.
  - destruct H3 as [-> _]. lia.
  - destruct H3 as (_ & -> & _). auto.
Qed.

(** The number of distinct values of [g] over a list of records, as computed by
    the "if x not in list: append" idiom. *)
Lemma distinct_step : forall l acc d, NoDup acc -> NoDup d -> (forall y, In y d <-> In y acc \/ In y l) ->
  zlen (fold_left (fun s x => add_new x s) l acc) = zlen d.
Proof.
  intros l acc d Ha Hd Hin. destruct (fold_add_new l acc Ha) as [N1 N2].
  unfold zlen. f_equal. apply Nat.le_antisymm; apply NoDup_incl_length; auto; intros y Hy.
  - apply Hin. apply N2 in Hy. tauto.
  - apply N2. apply Hin in Hy. tauto.
Qed.

(** ** The loops in terms of successive reads *)
Section Loops.
Context {St A : Type} (reader : St -> file -> St * file * rd A).
Context (is_kind : A -> bool) (chan nchan : A -> Z).

Lemma chan_loop_reads : forall n st f seen per st' f' l e, reads reader n st f = (st', f', l, e) ->
  chan_loop reader chan nchan n st f seen per =
  (st', f', fold_left (fun s x => add_new x s) (map chan l) seen, last (map nchan l) per).
Proof.
  induction n as [|n IH]; intros st f seen per st' f' l e H; cbn [reads] in H; cbn [chan_loop]; [inversion H; reflexivity|].
  destruct (reader st f) as [[st1 f1] [a| |loc]].
  - destruct (reads reader n st1 f1) as [[[st2 f2] l2] e2] eqn:E. inversion H; subst.
    rewrite (IH _ _ (add_new (chan a) seen) (nchan a) _ _ _ _ E). cbn [map fold_left]. f_equal.
    destruct l2 as [|b l2]; [reflexivity|]. cbn [map]. symmetry.
    change (last (nchan a :: nchan b :: map nchan l2) per) with (last (nchan b :: map nchan l2) per).
    clear. revert b. induction l2 as [|c l2 IH]; intro b; [reflexivity|]. cbn [map]. 
    change (last (nchan c :: map nchan l2) per = last (nchan c :: map nchan l2) (nchan a)). apply IH.
  - inversion H; reflexivity.
  - inversion H; reflexivity.
Qed.

Lemma obs_loop_reads : forall n st f seen st' f' l e, reads reader n st f = (st', f', l, e) -> e <> Some SyncError ->
  Forall (fun a => is_kind a = true) l ->
  obs_loop_tbx reader is_kind chan n st f seen = (st', f', fold_left (fun s x => add_new x s) (map chan l) seen).
Proof.
  induction n as [|n IH]; intros st f seen st' f' l e H HE HK; cbn [reads] in H; cbn [obs_loop_tbx]; [inversion H; reflexivity|].
  destruct (reader st f) as [[st1 f1] [a| |loc]].
  - destruct (reads reader n st1 f1) as [[[st2 f2] l2] e2] eqn:E. inversion H; subst. inversion HK; subst.
    rewrite H2. rewrite (IH _ _ (add_new (chan a) seen) _ _ _ _ E) by auto. reflexivity.
  - inversion H; reflexivity.
  - inversion H; subst. congruence.
Qed.

Lemma find_frame_first : forall n st f st1 f1 a, reader st f = (st1, f1, Got a) -> is_kind a = true ->
  find_frame reader is_kind (S n) st f = (st1, f1, Some (f_pos f, f_pos f1, a)).
Proof. intros n st f st1 f1 a H HK. cbn [find_frame]. rewrite H, HK. reflexivity. Qed.
End Loops.

(** ** Streams, any number of reads *)
Lemma cor_reads_own : forall m n rs a t, In n cor_modes -> Forall (fun r => cor_ok n r /\ unambiguous r) rs -> zlen t < cor_size n ->
  exists p e, 0 <= p /\ e <> Some SyncError /\
  reads read_cor m (mkCC n (Some (cor_size n))) (mkFile (a ++ flat_map cor_bytes rs ++ t) (zlen a)) =
  (mkCC n (Some (cor_size n)), mkFile (a ++ flat_map cor_bytes rs ++ t) p, map (cframe_of n) (firstn m rs), e).
Proof.
  induction m as [|m IH]; intros n rs a t Hm HF Ht.
  - exists (zlen a), None. split; [apply zlen_nonneg|]. split; [discriminate|]. reflexivity.
  - destruct rs as [|r rs].
    + exists (zlen a + zlen t), (Some EOFError). split; [pose proof (zlen_nonneg a); pose proof (zlen_nonneg t); lia|].
      split; [discriminate|]. pose proof (cor_stream_own n [] a t m Hm HF Ht) as H. exact H.
    + inversion HF as [|? ? [Hr Hu] HF']; subst.
      assert (HCC : cc_coherent (mkCC n (Some (cor_size n)))) by (split; [exact Hm|right; reflexivity]).
      pose proof (cor_bytes_zlen n r Hr) as HZ.
      destruct (IH n rs (a ++ cor_bytes r) t Hm HF' Ht) as (p & e & Hp & He & H).
      exists p, e. split; [auto|]. split; [auto|]. cbn [reads flat_map]. rewrite <- app_assoc.
      rewrite (read_cor_ok n) by (auto; left; reflexivity).
      rewrite <- !app_assoc, zlen_app, HZ in H. rewrite H. reflexivity.
Qed.

Lemma cor_first_read : forall n st r rs a t, In n cor_modes -> cc_coherent st ->
  Forall (fun r => cor_ok n r /\ unambiguous r) (r :: rs) ->
  cc_nchan st = n \/ (n < cc_nchan st /\ cor_size (cc_nchan st) <= zlen (r :: rs) * cor_size n) ->
  read_cor st (mkFile (a ++ flat_map cor_bytes (r :: rs) ++ t) (zlen a)) =
  (mkCC n (Some (cor_size n)), mkFile (a ++ flat_map cor_bytes (r :: rs) ++ t) (zlen a + cor_size n), Got (cframe_of n r)).
Proof.
  intros n st r rs a t Hm HC HF HN. inversion HF as [|? ? [Hr Hu] HF']; subst.
  cbn [flat_map]. rewrite <- app_assoc. apply read_cor_ok; auto.
  destruct HN as [HN|[Hlt HN]]; [left; auto|right]. split; [auto|].
  rewrite zlen_cons in HN. pose proof (zlen_nonneg rs). pose proof (zlen_nonneg t).
  rewrite zlen_app.
  rewrite (concat_map_len _ cor_bytes (cor_size n) (fun r => cor_ok n r /\ unambiguous r)) by
    (auto; intros r0 [X _]; apply cor_bytes_zlen; auto).
  pose proof (cor_size_pos n Hm). split; [|lia].
  destruct rs as [|r2 rs].
  + exfalso. change (zlen (@nil cor_rec)) with 0 in HN. unfold cor_size in HN.
    apply mode_cases in Hm. destruct HC as [HC _]. apply mode_cases in HC. lia.
  + cbn [flat_map]. rewrite <- app_assoc. apply cor_sync_prefix.
Qed.

Lemma cor_reads : forall m n st r rs a t, In n cor_modes -> cc_coherent st ->
  Forall (fun r => cor_ok n r /\ unambiguous r) (r :: rs) -> zlen t < cor_size n ->
  cc_nchan st = n \/ (n < cc_nchan st /\ cor_size (cc_nchan st) <= zlen (r :: rs) * cor_size n) ->
  exists p e, 0 <= p /\ e <> Some SyncError /\
  reads read_cor (S m) st (mkFile (a ++ flat_map cor_bytes (r :: rs) ++ t) (zlen a)) =
  (mkCC n (Some (cor_size n)), mkFile (a ++ flat_map cor_bytes (r :: rs) ++ t) p, map (cframe_of n) (firstn (S m) (r :: rs)), e).
Proof.
  intros m n st r rs a t Hm HC HF Ht HN. pose proof (cor_first_read n st r rs a t Hm HC HF HN) as H1.
  inversion HF as [|? ? [Hr Hu] HF']; subst. pose proof (cor_bytes_zlen n r Hr) as HZ.
  destruct (cor_reads_own m n rs (a ++ cor_bytes r) t Hm HF' Ht) as (p & e & Hp & He & H).
  exists p, e. split; [auto|]. split; [auto|]. cbn [reads]. rewrite H1. cbn [flat_map].
  rewrite <- !app_assoc, zlen_app, HZ in H. rewrite <- !app_assoc. rewrite H. reflexivity.
Qed.

Lemma tbx_reads_own : forall m ns nc rs st a t, tbx_mode ns nc -> tc_coherent st -> tc_mode st = (ns, nc) ->
  Forall (tbx_ok ns nc) rs -> zlen t < tbx_size ns nc ->
  exists st' p e, 0 <= p /\ e <> Some SyncError /\ tc_coherent st' /\ tc_mode st' = (ns, nc) /\
  reads read_tbx m st (mkFile (a ++ flat_map tbx_bytes rs ++ t) (zlen a)) =
  (st', mkFile (a ++ flat_map tbx_bytes rs ++ t) p, map tframe_of (firstn m rs), e).
Proof.
  induction m as [|m IH]; intros ns nc rs st a t HM HC HS HF Ht.
  - exists st, (zlen a), None. split; [apply zlen_nonneg|]. split; [discriminate|]. split; [auto|]. split; [auto|]. reflexivity.
  - destruct rs as [|r rs].
    + cbn [firstn map flat_map app reads]. unfold read_tbx. fold (tc_mode st). rewrite HS. cbn [tbx_loop]. unfold tbx_impl.
      assert (HBy : tc_bytes st = tbx_size ns nc) by (unfold tc_bytes; rewrite HS; reflexivity).
      pose proof (tsz_coherent st HC) as HZ0. rewrite HBy in HZ0. rewrite HZ0. pose proof (tbx_size_pos ns nc HM).
      rewrite f_read_at by lia. rewrite ztake_all by lia. destruct (Z.eqb_spec (zlen t) (tbx_size ns nc)); [lia|].
      cbn [negb]. eexists. eexists. eexists. split; [|split; [|split; [|split; [|reflexivity]]]].
      * pose proof (zlen_nonneg a). pose proof (zlen_nonneg t). lia.
      * discriminate.
      * right. cbn [tc_size]. f_equal. unfold tc_bytes, tc_mode in *. cbn [tc_nstand tc_nchan]. rewrite HS. reflexivity.
      * exact HS.
    + inversion HF as [|? ? Hr HF']; subst. cbn [flat_map reads]. rewrite <- app_assoc.
      destruct (read_tbx_ok ns nc st a (flat_map tbx_bytes rs ++ t) r HM HC Hr) as (st1 & HC1 & HS1 & HR).
      { unfold tc_bytes. rewrite HS. cbn [fst snd]. pose proof (zlen_nonneg (flat_map tbx_bytes rs ++ t)). lia. }
      rewrite HR. pose proof (tbx_bytes_zlen ns nc r Hr) as HZ.
      destruct (IH ns nc rs st1 (a ++ tbx_bytes r) t HM HC1 HS1 HF' Ht) as (st2 & p & e & Hp & He & HC2 & HS2 & H2).
      rewrite <- !app_assoc, zlen_app, HZ in H2. rewrite H2. exists st2, p, e. auto.
Qed.

Lemma tbx_first_read : forall ns nc st r rs a t, tbx_mode ns nc -> tc_coherent st ->
  Forall (tbx_ok ns nc) (r :: rs) -> tc_bytes st <= zlen (r :: rs) * tbx_size ns nc + zlen t ->
  exists st', tc_coherent st' /\ tc_mode st' = (ns, nc) /\
  read_tbx st (mkFile (a ++ flat_map tbx_bytes (r :: rs) ++ t) (zlen a)) =
  (st', mkFile (a ++ flat_map tbx_bytes (r :: rs) ++ t) (zlen a + tbx_size ns nc), Got (tframe_of r)).
Proof.
  intros ns nc st r rs a t HM HC HF HB. inversion HF as [|? ? Hr HF']; subst.
  cbn [flat_map]. rewrite <- app_assoc. apply read_tbx_ok; auto.
  rewrite zlen_app, (concat_map_len _ tbx_bytes (tbx_size ns nc) (tbx_ok ns nc)) by (auto; apply tbx_bytes_zlen).
  rewrite zlen_cons in HB. lia.
Qed.

Lemma tbx_reads : forall m ns nc st r rs a t, tbx_mode ns nc -> tc_coherent st ->
  Forall (tbx_ok ns nc) (r :: rs) -> zlen t < tbx_size ns nc -> tc_bytes st <= zlen (r :: rs) * tbx_size ns nc + zlen t ->
  exists st' p e, 0 <= p /\ e <> Some SyncError /\ tc_coherent st' /\ tc_mode st' = (ns, nc) /\
  reads read_tbx (S m) st (mkFile (a ++ flat_map tbx_bytes (r :: rs) ++ t) (zlen a)) =
  (st', mkFile (a ++ flat_map tbx_bytes (r :: rs) ++ t) p, map tframe_of (firstn (S m) (r :: rs)), e).
Proof.
  intros m ns nc st r rs a t HM HC HF Ht HB.
  destruct (tbx_first_read ns nc st r rs a t HM HC HF HB) as (st1 & HC1 & HS1 & H1).
  inversion HF as [|? ? Hr HF']; subst. pose proof (tbx_bytes_zlen ns nc r Hr) as HZ.
  destruct (tbx_reads_own m ns nc rs st1 (a ++ tbx_bytes r) t HM HC1 HS1 HF' Ht) as (st2 & p & e & Hp & He & HC2 & HS2 & H2).
  exists st2, p, e. split; [auto|]. split; [auto|]. split; [auto|]. split; [auto|].
  cbn [reads]. rewrite H1. cbn [flat_map]. rewrite <- !app_assoc, zlen_app, HZ in H2. rewrite <- !app_assoc. rewrite H2. reflexivity.
Qed.

(** ** Finding the first frame behind bytes that are no frame *)
Lemma cor_skip : forall g m st a c, cc_coherent st -> bytes_ok (a ++ g ++ c) ->
  (forall i, 0 <= i < zlen g -> ztake 4 (zdrop i (g ++ c)) <> sync_bytes) -> cor_size 192 <= zlen c -> g <> [] ->
  find_frame read_cor is_cor (length g + m) st (mkFile (a ++ g ++ c) (zlen a)) =
  find_frame read_cor is_cor m cor_fresh (mkFile (a ++ g ++ c) (zlen a + zlen g)).
Proof.
  induction g as [|x g IH]; intros m st a c HC HB HS HL NE; [congruence|]. clear NE.
  cbn [length Nat.add find_frame].
  pose proof (zlen_nonneg a) as La. pose proof (zlen_nonneg g) as Lg.
  destruct (read_cor st _) as [[st1 f1] r] eqn:E.
  pose proof (read_cor_total st (mkFile (a ++ (x :: g) ++ c) (zlen a)) st1 f1 r HC La HB E) as (O1 & O2 & O3). cbn [f_data f_pos] in O1, O3.
  assert (Z1 : zdrop (zlen a) (a ++ (x :: g) ++ c) = (x :: g) ++ c) by apply zdrop_app_exact.
  assert (N := HS 0 ltac:(rewrite zlen_cons; lia)). change (zdrop 0 ((x :: g) ++ c)) with ((x :: g) ++ c) in N.
  destruct r as [d| |loc].
  - destruct O3 as (_ & _ & _ & _ & X). rewrite Z1 in X. contradiction.
  - destruct O3 as (_ & X & _). rewrite !zlen_app, zlen_cons in X.
    assert (cor_size (cc_nchan st) <= cor_size 192) by (destruct HC as [HC _]; apply mode_cases in HC; unfold cor_size; lia). lia.
  - destruct O3 as (_ & P1 & -> & _). destruct f1 as [dd pp]. cbn [f_data f_pos] in *. subst dd pp.
    unfold f_rel, f_seek. change (1 =? 0) with false. change (1 =? 1) with true. cbn [f_data f_pos].
    destruct (Z.ltb_spec (zlen a + 1) 0); [lia|]. cbn [fst].
    replace (mkFile (a ++ (x :: g) ++ c) (zlen a + 1)) with (mkFile ((a ++ [x]) ++ g ++ c) (zlen (a ++ [x])))
      by (rewrite zlen_app; change (zlen [x]) with 1; f_equal; rewrite <- app_assoc; reflexivity).
    destruct g as [|y g].
    + rewrite zlen_app. cbn [length Nat.add app]. rewrite <- app_assoc. reflexivity.
    + rewrite IH; [|split; [simpl; tauto|left; reflexivity]| | |exact HL|discriminate].
      * f_equal. rewrite zlen_app. change (zlen [x]) with 1. rewrite !zlen_cons. f_equal; [rewrite <- app_assoc; reflexivity|lia].
      * rewrite <- app_assoc. exact HB.
      * intros i Hi. specialize (HS (i + 1) ltac:(rewrite zlen_cons; lia)).
        replace (zdrop (i + 1) ((x :: y :: g) ++ c)) with (zdrop i ((y :: g) ++ c)) in HS; [exact HS|].
        unfold zdrop. replace (Z.to_nat (i + 1)) with (S (Z.to_nat i)) by lia. reflexivity.
Qed.
