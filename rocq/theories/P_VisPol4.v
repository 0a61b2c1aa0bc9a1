(** Gains for several integrations. *)
From Coq Require Import String List ZArith QArith Qcanon Bool Lia.
From Verif Require Import M_Vis M_VisPol S_Vis S_VisPol P_Base P_Vis P_Vis2 P_Vis3 P_VisPol P_VisPol2 P_VisPol3 P_VisData.
Import ListNotations.
Open Scope Z_scope.

Section V.
Context {PC : Type}.
Implicit Types v w c : vds PC.

Lemma scale_pols_frame : forall gains bl l h, let h' := fst (scale_pols gains bl l h) in
  ha h' = ha h /\ length (hp h') = length (hp h) /\ forall r, ~ In r (map snd l) -> nth_error (hp h') r = nth_error (hp h) r.
Proof.
  intros gains bl. induction l as [|[n r] l IH]; intro h; simpl; auto.
  destruct (nth_error (hp h) r) as [p|] eqn:E; simpl; auto.
  destruct (scale_rows gains bl 0 (p_data p)) as [d|e]; simpl; auto.
  destruct (IH (set_pol h r (mkP (p_pol p) d (p_wgt p) (p_mask p)))) as (H1 & H2 & H3). split; [auto|]. split; [rewrite H2; simpl; apply upd_length|].
  intros s NS. rewrite H3 by tauto. simpl. apply upd_other. intro. subst. tauto.
Qed.

Lemma scale_pols_shows : forall gains n h c names t, shows h c names t -> gains_for gains n t ->
  exists h', scale_pols gains (v_bl c) (v_pols c) h = (h', Ok tt) /\ shows h' c names (map (scaled gains) t).
Proof.
  intros gains n h c names t SC G.
  destruct (scale_pols_ok gains n h c names t G SC (v_pols c) 0 h) as (h' & R1 & R2 & R3 & R4 & R5); auto.
  { intros i m r K _. apply (shows_col _ _ _ _ _ _ _ SC K). }
  exists h'. split; auto. pose proof SC as (B & U & N & D & L & H). unfold shows.
  split; [rewrite B, map_map; reflexivity|]. split; [rewrite R2, U, map_map; reflexivity|].
  split; [auto|]. split; [auto|]. split.
  - apply Forall_forall. intros r I. apply in_map_iff in I. destruct I as (x & <- & I). simpl. rewrite map_length.
    rewrite Forall_forall in L. auto.
  - intros k name r K. split; [apply (H _ _ _ K)|]. apply R4; auto. split; [lia|]. simpl. eapply nth_error_lt; eauto.
Qed.

Definition scale_one (gains : list (list C)) (bl : list (Z * Z)) (h : heap) v : heap * vds PC * res unit :=
  let (h', o) := scale_pols gains bl (v_pols v) h in (h', v, o).

Lemma scale_sets_turn : forall gains bl (l : vdata PC) h h' l' o, in_turn (scale_one gains bl) false h l = (h', l', o) ->
  scale_sets gains bl l h = (h', o).
Proof.
  intros gains bl. induction l as [|v l IH]; intros h h' l' o E; simpl in *; [inversion E; auto|].
  unfold scale_one at 1 in E. destruct (scale_pols gains bl (v_pols v) h) as [h1 [u|e]].
  - destruct (in_turn (scale_one gains bl) false h1 l) as [[h2 l2] o2] eqn:X. inversion E. subst. eapply IH; eauto.
  - inversion E. auto.
Qed.

Lemma scale_vdata_ok : forall h (its : list (@item PC)) gains n bl, all_show h its -> different_dates (sets its) -> uniform its ->
  Forall (fun x => map r_bl (shown_rows x) = bl /\ gains_for gains n (shown_rows x)) its ->
  exists h' its', scale_vdata h (sets its) gains = (h', Ok (sets its')) /\ all_show h' its' /\ all_show h' its /\
    Forall2 (other_rows (fun _ t t' => t' = map (scaled gains) t)) its its'.
Proof.
  intros h its gains n bl SH DD (np & nc & UN) BL. unfold scale_vdata, vd_copy.
  destruct (vd_each_ok (fun h v => copy h v true) (fun _ t t' => t' = t) its (length bl) np nc) with (h := h)
    as (h1 & its1 & E1 & S1 & F1 & G1 & FR1 & A1); auto.
  { intros h0 x I S. destruct (copy_ok _ _ _ _ S) as (h' & c & X1 & X2 & X3 & X4 & X5). exists h', c, (shown_rows x). tauto. }
  { rewrite Forall_forall in *. intros x I. destruct (UN x I) as (U1 & U2). destruct (BL x I) as (B1 & _).
    split; [auto|]. split; [auto|]. intros t' ->. rewrite <- B1, map_length. reflexivity. }
  rewrite E1.
  assert (BL1 : Forall (fun y => v_bl (fst y) = bl /\ gains_for gains n (shown_rows y)) its1).
  { apply Forall_forall. intros y I. pose proof I as J. apply In_nth_error in J. destruct J as (k & J).
    destruct (Forall2_nth_error_r _ _ _ _ _ F1 _ _ J) as (x & Ix & (_ & _ & T)). simpl in T. rewrite T.
    rewrite Forall_forall in BL. destruct (BL x (nth_error_In _ _ Ix)) as (B1 & B2). split; auto.
    unfold all_show in S1. rewrite Forall_forall in S1. destruct (S1 y I) as (B & _). rewrite B, T. auto. }
  assert (FO : first_of v_bl [] (sets its1) = bl \/ its1 = []).
  { destruct its1 as [|y its1]; [auto|]. left. simpl. inversion BL1. tauto. }
  set (bl' := first_of v_bl [] (sets its1)) in *.
  destruct (in_turn_ok (scale_one gains bl') false (fun x y => fst y = fst x /\ shown_names y = shown_names x /\ shown_rows y = map (scaled gains) (shown_rows x)))
    with (its := its1) (h := h1) as (h2 & its2 & E2 & S2 & F2 & K2); auto.
  { intros h0 c v names t S P. unfold scale_one. pose proof (scale_pols_frame gains bl' (v_pols c) h0) as (H1 & H2 & H3).
    destruct (scale_pols gains bl' (v_pols c) h0) as [h' o]. simpl in *. split; auto. eapply shows_frame; eauto.
    - rewrite H1. auto.
    - intros m r I. apply H3. intro J. apply in_map_iff in J. destruct J as ([q s] & E & J). simpl in E. subst s. destruct P as (_ & P). eapply P; eauto. }
  { intros h0 x I S. rewrite Forall_forall in BL1. destruct (BL1 x I) as (B1 & B2).
    destruct (scale_pols_shows gains n h0 _ _ _ S B2) as (h' & X1 & X2).
    exists h', (fst x, (shown_names x, map (scaled gains) (shown_rows x))), (Ok tt). unfold scale_one.
    assert (EB : bl' = v_bl (fst x)) by (destruct FO as [->| ->]; [auto|destruct I]). rewrite EB, X1. split; [reflexivity|]. split; [exact X2|]. split; [repeat split|auto]. }
  rewrite (scale_sets_turn _ _ _ _ _ _ _ E2).
  assert (EQ : sets its2 = sets its1).
  { clear - F2. induction F2 as [|x y a b (H & _) F IH]; simpl; auto. f_equal; auto. }
  exists h2, its2. rewrite EQ. split; [auto|]. split; [auto|]. split.
  - unfold all_show in *. rewrite Forall_forall in *. intros x I.
    apply K2.
    + eapply grows_shows; eauto.
    + apply Forall_forall. intros w J. apply in_map_iff in J. destruct J as (y & <- & J). 
      eapply (fresh_separate h (fst y) (fst x)); eauto.
  - clear - F1 F2. revert its2 F2. induction F1 as [|x y a b (H1 & H2 & H3) F IH]; intros its2 F2; inversion F2 as [|? z ? c (K1 & K3 & K4) F2']; subst; constructor; auto.
    unfold other_rows. simpl in *. rewrite K1, K3, K4, H2, H3. auto.
Qed.
End V.
