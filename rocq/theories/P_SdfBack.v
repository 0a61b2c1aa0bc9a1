(** Lemmas about session definition files: valid projects, and when everything comes back. *)
From Coq Require Import Ascii String.
From Coq Require Import List ZArith Bool Lia QArith Qround Qabs Lqa.
From Verif Require Import M_Str P_Str P_Bar M_Sdf S_Sdf P_Sdf P_SdfRun P_SdfObs P_SdfAll.
Import ListNotations.
Open Scope Z_scope.
Ltac Zify.zify_post_hook ::= Z.div_mod_to_equations.

(** *** Valid projects *)
Lemma asp_lens : forall o, asp_ok o = true -> (NSTD <= length (o_fee o) /\ NSTD <= length (o_flt o) /\ NSTD <= length (o_at1 o) /\ NSTD <= length (o_at2 o) /\ NSTD <= length (o_at3 o))%nat.
Proof. intros o H. unfold asp_ok in H. rewrite !andb_true_iff, !Nat.leb_le in H. tauto. Qed.
Lemma upd_fields : forall o, o_setup (upd o) = o_setup o /\ o_name (upd o) = o_name o /\ o_target (upd o) = o_target o /\ o_comments (upd o) = o_comments o /\ o_mjd (upd o) = o_mjd o /\ o_mpm (upd o) = o_mpm o.
Proof. intro o. unfold upd. destruct (o_setup o) eqn:E; cbn; auto 10. Qed.
Lemma obs_ok_good : forall visible a b m o, obs_ok visible a b m (upd o) = inr true -> obs_good (upd o).
Proof.
  intros visible a b m o H. destruct (upd_fields o) as [S _]. unfold obs_ok in H. rewrite S in H.
  assert (A : asp_ok (upd o) = true /\ match o_setup o with STEPPED _ rd ss => ss <> [] /\ Forall (fun p => p_radec p = rd) ss /\ Forall spec_lens ss | _ => True end).
  { destruct (o_setup o) as [n|f1 f|k f1 f2 f h|f rd ss]; try (injection H as H'; rewrite !andb_true_iff in H'; tauto).
    destruct ss as [|p ss]; [discriminate|]. remember (p :: ss) as l. injection H as H'. rewrite !andb_true_iff in H'. destruct H' as [[[[_ F] _] _] [_ A]].
    split; [auto|]. split; [subst; discriminate|]. rewrite forallb_forall in F. split; apply Forall_forall; intros x X; specialize (F x X); rewrite andb_true_iff in F; destruct F as [F1 F2].
    - apply eqb_prop in F2. auto.
    - unfold step_ok in F1. rewrite !andb_true_iff in F1. destruct F1 as [[[F1 _] _] _]. unfold spec_lens. destruct (p_spec x) as [[d g]|]; auto. rewrite andb_true_iff, !Nat.eqb_eq in F1. auto. }
  destruct A as [A1 A2]. apply asp_lens in A1. destruct A1 as (L1 & L2 & L3 & L4 & L5). split; auto. rewrite S. destruct (o_setup o) as [n|f1 f|k f1 f2 f h|f rd ss] eqn:E; auto.
  destruct A2 as (B1 & B2 & B3). split; [auto|]. split; [auto|]. split; [auto|]. unfold upd. rewrite E. reflexivity.
Qed.
Lemma all_ok_good : forall visible a b m l, all_ok visible a b m (map upd l) = inr true -> Forall obs_good (map upd l).
Proof.
  induction l as [|o l IH]; intro H; [constructor|]. cbn [map all_ok] in H. destruct (obs_ok visible a b m (upd o)) as [e|x] eqn:E; [discriminate|].
  destruct (all_ok visible a b m (map upd l)) as [e|y] eqn:F; [discriminate|]. injection H as H. apply andb_true_iff in H. destruct H as [-> ->]. cbn [map]. constructor; [eapply obs_ok_good; exact E|auto].
Qed.
Lemma insert_forall : forall (P : obs -> Prop) o l, P o -> Forall P l -> Forall P (insert_obs o l).
Proof. induction l as [|c l IH]; intros A B; cbn; [auto|]. inversion B; subst. destruct (start o <=? start c); auto. Qed.
Lemma sort_forall : forall (P : obs -> Prop) l, Forall P l -> Forall P (sort_obs l).
Proof. induction l as [|o l IH]; intro H; cbn; [constructor|]. inversion H; subst. apply insert_forall; auto. Qed.
Lemma upd_wf : forall o, obs_wf o -> obs_wf (upd o).
Proof.
  intros o [A B C D E F]. unfold upd. destruct (o_setup o) as [n|f1 f|k f1 f2 f h|f rd ss] eqn:S; try (split; auto; rewrite S; exact F).
  split; cbn; auto. destruct (existsb is_spec ss); auto.
Qed.
Lemma settled_wf : forall j, proj_wf j -> proj_wf (settled j).
Proof.
  intros j [A B C D [E F G H I K M]]. split; auto. split; auto. cbn. apply sort_forall. apply Forall_forall. intros x X. apply in_map_iff in X. destruct X as (o & <- & X). apply upd_wf.
  rewrite Forall_forall in M. auto.
Qed.
Lemma session_facts : forall visible s, session_ok visible s = inr true ->
  all_ok visible (s_nchan s) (s_nwin s) (s_meta s) (map upd (s_obs s)) = inr true /\ apart (map upd (s_obs s)) = true /\
  (if (0 <? s_nchan s) || (0 <? s_nwin s) || negb (str_eqb (s_meta s) [])
   then in_list (s_nchan s) chan_counts && in_list (s_nwin s) win_counts && existsb (str_eqb (s_meta s)) metatags && negb (match map upd (s_obs s) with o :: _ => is_tb o | [] => false end)
   else true) = true /\
  between 1 (s_id s) 9999 = true /\ between 0 (s_cra s) 65535 = true /\ (s_beam s =? -1) || between 1 (s_beam s) BEAMS_MAX = true /\
  existsb is_tb (map upd (s_obs s)) && existsb (fun o => negb (is_tb o)) (map upd (s_obs s)) = false /\
  fits (fold_right (fun o b => (bytes (s_nchan s) (s_nwin s) (s_meta s) o + b)%Q) 0%Q (map upd (s_obs s))) = true.
Proof.
  intros visible s H. unfold session_ok in H. destruct (all_ok visible (s_nchan s) (s_nwin s) (s_meta s) (map upd (s_obs s))) as [e|g]; [discriminate|]. injection H as H.
  rewrite !andb_true_iff in H. destruct H as [[[[[[[[[A B] C] D] E] F] G] I] K] M]. apply negb_true_iff in I. subst g. repeat (split; [assumption || reflexivity|]); assumption.
Qed.
Lemma str_eqb_true : forall a b, str_eqb a b = true -> a = b.
Proof. intros a b. revert b. induction a as [|x a IH]; intros [|y b] H; cbn in H; try discriminate; auto. apply andb_true_iff in H. destruct H as [E H]. apply Z.eqb_eq in E. subst. f_equal. auto. Qed.
Lemma in_list_in : forall x l, in_list x l = true -> In x l.
Proof. intros x l H. unfold in_list in H. apply existsb_exists in H. destruct H as (y & Y & E). apply Z.eqb_eq in E. subst. auto. Qed.
Lemma spc_valid : forall visible s, session_ok visible s = inr true -> 0 <= s_nchan s /\ 0 <= s_nwin s -> spc_good s.
Proof.
  intros visible s H [N W]. apply session_facts in H. destruct H as (_ & _ & H & _). unfold spc_good. destruct (_ || _) eqn:E.
  - rewrite !andb_true_iff in H. destruct H as [[[A B] C] _]. right. split; [|split].
    + apply in_list_in in A. intro X. rewrite X in A. cbn in A. intuition lia.
    + apply in_list_in in B. intro X. rewrite X in B. cbn in B. intuition lia.
    + apply existsb_exists in C. destruct C as (y & Y & C). apply str_eqb_true in C. rewrite C. auto.
  - left. rewrite !orb_false_iff, negb_false_iff, !Z.ltb_ge in E. destruct E as [[A B] C]. apply str_eqb_true in C. split; [lia|]. split; [lia|]. auto.
Qed.
Lemma inr_inj : forall (A B : Type) (a b : B), @inr A B a = inr b -> a = b.
Proof. intros. congruence. Qed.
Theorem render_parse : forall visible j t, proj_wf j -> render visible j = inr t -> parse_sdf t = inr (back (settled j)).
Proof.
  intros visible j t W H. unfold render in H. destruct (project_ok visible j) as [e|[]] eqn:E; [discriminate| |discriminate]. apply inr_inj in H. subst t.
  unfold project_ok in E. destruct (session_ok visible (j_ses j)) as [e|b] eqn:S; [discriminate|]. injection E as E. apply andb_true_iff in E. destruct E as [_ ->].
  apply parse_lines.
  - apply settled_wf. auto.
  - cbn. unfold spc_good. cbn. apply (spc_valid visible _ S). apply (w_spc _ (w_ses j W)).
  - cbn. apply sort_forall. destruct (session_facts _ _ S) as [A _]. apply all_ok_good in A. auto.
Qed.

(** *** When everything comes back *)
Lemma over_nth : forall old new i, length old = length new -> nth i (over old new) 0 = if nth i new 0 =? -1 then nth i old 0 else nth i new 0.
Proof.
  unfold over. induction old as [|a old IH]; intros [|b new] i L; cbn in L; try discriminate; [destruct i; reflexivity|].
  destruct i as [|i]; cbn [combine map nth fst snd]; [reflexivity|]. apply IH. lia.
Qed.
Definition pick (p v : Z) : Z := if v =? -1 then p else v.
Lemma over_fee_nth : forall old new i, length old = length new ->
  nth i (over_fee old new) (0, 0) = nth i old (0, 0) /\ (exists h, In h new /\ (fst h = -1 \/ snd h = -1) /\ forall g, In g new -> g = h) \/
  nth i (over_fee old new) (0, 0) = (pick (fst (nth i old (0, 0))) (fst (nth i new (0, 0))), pick (snd (nth i old (0, 0))) (snd (nth i new (0, 0)))).
Proof.
  intros old new i L. destruct new as [|h new]; [right; destruct old; [destruct i; reflexivity|discriminate]|].
  unfold over_fee. destruct (_ && _) eqn:E.
  - left. split; [auto|]. apply andb_true_iff in E. destruct E as [E F]. exists h. split; [left; auto|]. split.
    + apply orb_true_iff in F. rewrite !Z.eqb_eq in F. auto.
    + intros g G. rewrite forallb_forall in E. specialize (E g G). rewrite andb_true_iff, !Z.eqb_eq in E. destruct g, h. cbn in E. destruct E. congruence.
  - right. clear E. revert L i. generalize (h :: new) as l. clear h new. intros l L i. revert l i L. induction old as [|a old IH]; intros [|b l] i L; cbn in L; try discriminate; [destruct i; reflexivity|].
    destruct i as [|i]; cbn [combine map nth fst snd]; [reflexivity|]. apply IH. lia.
Qed.

Record holds (m : keep) (o : obs) : Prop := {
  h_fee : length (k_fee m) = 256%nat; h_flt : length (k_flt m) = 256%nat; h_at1 : length (k_at1 m) = 256%nat; h_at2 : length (k_at2 m) = 256%nat; h_at3 : length (k_at3 m) = 256%nat;
  h_hdr : match o_setup o with TRK _ _ _ _ false => k_hdr m = false | _ => True end;
  h_gain : match o_setup o with TBT _ | TBS _ _ => True | _ => o_gain o = -1 -> k_gain m = -1 end;
  h_bdm : k_bdm m <> None -> o_bdm o = None -> match o_setup o with STEPPED _ _ ss => existsb is_spec ss = true | _ => False end;
  h_fee1 : forall i, fst (nth i (o_fee o) (0, 0)) = -1 -> fst (nth i (k_fee m) (0, 0)) = -1;
  h_fee2 : forall i, snd (nth i (o_fee o) (0, 0)) = -1 -> snd (nth i (k_fee m) (0, 0)) = -1;
  h_flt1 : forall i, nth i (o_flt o) 0 = -1 -> nth i (k_flt m) 0 = -1;
  h_at11 : forall i, nth i (o_at1 o) 0 = -1 -> nth i (k_at1 m) 0 = -1;
  h_at21 : forall i, nth i (o_at2 o) 0 = -1 -> nth i (k_at2 m) 0 = -1;
  h_at31 : forall i, nth i (o_at3 o) 0 = -1 -> nth i (k_at3 m) 0 = -1 }.

Lemma nth_same : forall (A : Type) (l : list A) x d i, nth i l d <> d -> (forall y, In y l -> y = x) -> nth i l d = x.
Proof. intros A l x d i N H. apply H. destruct (nth_in_or_default i l d); [auto|contradiction]. Qed.
Lemma nth_rep : forall (A : Type) (x d : A) n i, (i < n)%nat -> nth i (repeat x n) d = x.
Proof. induction n as [|n IH]; intros [|i] H; cbn; auto; try lia. apply IH. lia. Qed.
Lemma nothing_holds : forall o, steady_alone o -> holds nothing_set o.
Proof.
  intros o V.
  assert (W : forall l i, length l = 256%nat -> nth i l 0 = -1 -> nth i (repeat (-1) 256) 0 = -1).
  { intros l i L N. apply nth_rep. destruct (le_lt_dec 256 i); [|auto]. rewrite nth_overflow in N by lia. discriminate. }
  assert (F : forall (g : Z * Z -> Z) l i, g (0, 0) = 0 -> length l = 256%nat -> g (nth i l (0, 0)) = -1 -> (i < 256)%nat).
  { intros g l i G L N. destruct (le_lt_dec 256 i); [|auto]. rewrite nth_overflow in N by lia. lia. }
  destruct V as [A B C D E _ _]. split; try reflexivity; try (intros i; apply W; assumption).
  - destruct (o_setup o); auto. destruct hdr; auto.
  - destruct (o_setup o); auto.
  - intro X. exfalso. apply X. reflexivity.
  - intros i N. cbn [nothing_set k_fee]. rewrite nth_rep; [reflexivity|]. exact (F fst _ i eq_refl A N).
  - intros i N. cbn [nothing_set k_fee]. rewrite nth_rep; [reflexivity|]. exact (F snd _ i eq_refl A N).
Qed.

Lemma over_len : forall a b n, length a = n -> length b = n -> length (over a b) = n.
Proof. intros a b n A B. rewrite over_length by lia. auto. Qed.
Lemma over_fee_len : forall a b n, length a = n -> length b = n -> length (over_fee a b) = n.
Proof. intros a b n A B. rewrite over_fee_length by lia. auto. Qed.
Lemma holds_next : forall m p o, holds m p -> steady_alone p -> steady_alone o -> holds m o -> stays_set p o -> holds (remember m p) o.
Proof.
  intros m p o _ VP VO H Y. destruct H, VP, Y.
  assert (W : forall old new l, length old = 256%nat -> length new = 256%nat -> (forall i, nth i l 0 = -1 -> nth i old 0 = -1) -> (forall i, nth i l 0 = -1 -> nth i new 0 = -1) ->
              forall i, nth i l 0 = -1 -> nth i (over old new) 0 = -1).
  { intros old new l A B C D i N. rewrite over_nth by congruence. rewrite (D i N). cbn. apply C. auto. }
  split; cbn [remember k_fee k_flt k_at1 k_at2 k_at3 k_hdr k_gain k_bdm]; auto using over_len, over_fee_len.
  - destruct (o_setup o); auto. destruct hdr; auto. rewrite h_hdr0. destruct (o_setup p); auto. destruct hdr; auto. contradiction.
  - destruct (o_setup o) eqn:E; auto; intro G; specialize (h_gain0 G); destruct (o_setup p); auto; rewrite (y_gain G); exact h_gain0.
  - intros B N. destruct (o_bdm p) as [b|]; [apply y_bdm; [discriminate|auto]|]. apply h_bdm0; auto.
  - intros i N. destruct (over_fee_nth (k_fee m) (o_fee p) i) as [[-> _] | ->]; [congruence|auto|]. cbn [fst]. rewrite (y_fee1 i N). cbn. auto.
  - intros i N. destruct (over_fee_nth (k_fee m) (o_fee p) i) as [[-> _] | ->]; [congruence|auto|]. cbn [snd]. rewrite (y_fee2 i N). cbn. auto.
  - intros i N. apply (W (k_flt m) (o_flt p) (o_flt o)); auto.
  - intros i N. apply (W (k_at1 m) (o_at1 p) (o_at1 o)); auto.
  - intros i N. apply (W (k_at2 m) (o_at2 p) (o_at2 o)); auto.
  - intros i N. apply (W (k_at3 m) (o_at3 p) (o_at3 o)); auto.
Qed.
Lemma over_is : forall old new, length old = length new -> (forall i, nth i new 0 = -1 -> nth i old 0 = -1) -> over old new = new.
Proof.
  intros old new L H. apply (nth_ext _ _ 0 0); [rewrite over_length by lia; auto|]. intros i _. rewrite over_nth by auto. destruct (Z.eqb_spec (nth i new 0) (-1)) as [E|E]; auto. rewrite E. auto.
Qed.
Lemma over_fee_is : forall old new, length old = length new -> (forall i, fst (nth i new (0, 0)) = -1 -> fst (nth i old (0, 0)) = -1) ->
  (forall i, snd (nth i new (0, 0)) = -1 -> snd (nth i old (0, 0)) = -1) ->
  (forall f, In f new -> (fst f = -1 /\ snd f <> -1) \/ (fst f <> -1 /\ snd f = -1) -> exists g, In g new /\ g <> f) -> over_fee old new = new.
Proof.
  intros old new L A B C. apply (nth_ext _ _ (0, 0) (0, 0)); [rewrite over_fee_length by lia; auto|]. intros i I. rewrite over_fee_length in I by lia.
  assert (J : In (nth i new (0, 0)) new) by (apply nth_In; lia).
  assert (K : pick (fst (nth i old (0, 0))) (fst (nth i new (0, 0))) = fst (nth i new (0, 0)) /\ pick (snd (nth i old (0, 0))) (snd (nth i new (0, 0))) = snd (nth i new (0, 0))).
  { unfold pick. split; [destruct (Z.eqb_spec (fst (nth i new (0, 0))) (-1)) as [E|E]|destruct (Z.eqb_spec (snd (nth i new (0, 0))) (-1)) as [E|E]]; auto; rewrite E; auto. }
  destruct (over_fee_nth old new i L) as [[-> (h & Hh & F & G)] | ->].
  - assert (E : nth i new (0, 0) = h) by auto. assert (N : fst h = -1 /\ snd h = -1).
    { destruct (Z.eq_dec (fst h) (-1)), (Z.eq_dec (snd h) (-1)); auto; try tauto.
      - destruct (C h Hh ltac:(auto)) as (g & G1 & G2). exfalso. apply G2. auto.
      - destruct (C h Hh ltac:(auto)) as (g & G1 & G2). exfalso. apply G2. auto. }
    destruct N as [N1 N2]. specialize (A i). specialize (B i). rewrite E in A, B. specialize (A N1). specialize (B N2). rewrite E. destruct (nth i old (0, 0)), h. cbn in *. congruence.
  - destruct K as [-> ->]. symmetry. apply surjective_pairing.
Qed.
Lemma steps_copy : forall ss h d, steps_steady h (match d with Some _ => true | None => false end) ss -> back_steps h d ss = map copy_step ss.
Proof.
  induction ss as [|p ss IH]; intros h d S; [reflexivity|]. cbn [steps_steady] in S. destruct S as (A & B & C). cbn [back_steps map]. unfold copy_step, is_spec in *.
  destruct (p_spec p) as [s|].
  - rewrite (B eq_refl) in *. f_equal. apply IH. exact C.
  - destruct d; [discriminate (A eq_refl)|]. f_equal. apply IH. exact C.
Qed.
Lemma copy_spec : forall ss, existsb is_spec (map copy_step ss) = existsb is_spec ss.
Proof. induction ss as [|p ss IH]; cbn; auto. rewrite IH. reflexivity. Qed.
Lemma back_copy : forall m o, holds m o -> steady_alone o -> back_obs (remember m o) o = copy_obs o.
Proof.
  intros m o H V. destruct H, V. unfold back_obs, copy_obs. cbn [remember k_fee k_flt k_at1 k_at2 k_at3 k_hdr k_gain k_bdm].
  rewrite over_fee_is; [|rewrite h_fee0, v_fee; reflexivity|exact h_fee3|exact h_fee4|exact v_half].
  rewrite (over_is (k_flt m)), (over_is (k_at1 m)), (over_is (k_at2 m)), (over_is (k_at3 m)) by (assumption || (transitivity 256%nat; [assumption|symmetry; assumption])).
  destruct (o_setup o) as [n|f1 f|k f1 f2 f h|f rd ss] eqn:E.
  - cbn. rewrite v_setup. f_equal. destruct (o_bdm o); [reflexivity|]. cbn. destruct (k_bdm m); [exfalso; apply h_bdm0; [discriminate|auto]|reflexivity].
  - cbn. rewrite v_setup. f_equal. destruct (o_bdm o); [reflexivity|]. cbn. destruct (k_bdm m); [exfalso; apply h_bdm0; [discriminate|auto]|reflexivity].
  - assert (X : (if o_gain o =? -1 then k_gain m else o_gain o) = o_gain o) by (destruct (Z.eqb_spec (o_gain o) (-1)) as [G|G]; [rewrite G; auto|auto]). rewrite X.
    assert (Y : k_hdr m || h = h) by (destruct h; [apply orb_true_r|rewrite h_hdr0; auto]).
    assert (Z : match o_bdm o with Some b => Some (mkBdm (inject_Z (Qfloor (b_stand b))) (decimals 4 (b_beam b)) (decimals 4 (b_dipole b)) (b_pol b)) | None => k_bdm m end = option_map copy_bdm (o_bdm o)).
    { destruct (o_bdm o); [reflexivity|]. cbn. destruct (k_bdm m); [exfalso; apply h_bdm0; [discriminate|auto]|reflexivity]. }
    rewrite Z. destruct k; cbn [back_setup copy_setup remember k_hdr]; rewrite E, Y; reflexivity.
  - destruct v_setup as [S B]. cbn [back_setup copy_setup]. rewrite (steps_copy ss false None S), copy_spec.
    assert (X : (if o_gain o =? -1 then k_gain m else o_gain o) = o_gain o) by (destruct (Z.eqb_spec (o_gain o) (-1)) as [G|G]; [rewrite G; auto|auto]). rewrite X. f_equal.
    destruct (existsb is_spec ss); [rewrite B; auto|]. destruct (o_bdm o); [reflexivity|]. cbn. destruct (k_bdm m); [discriminate h_bdm0; [discriminate|auto]|reflexivity].
Qed.
Lemma back_all_copy : forall l m, steady l -> Forall (holds m) l -> back_all m l = map copy_obs l.
Proof.
  induction l as [|o l IH]; intros m [S P] H; [reflexivity|]. inversion S; subst. inversion P; subst. inversion H; subst. cbn [back_all map]. cbv zeta. rewrite back_copy by auto. f_equal.
  apply IH; [split; auto|]. rewrite Forall_forall in *. intros x X. apply holds_next; auto.
Qed.
Lemma back_is_copy : forall j, steady (s_obs (j_ses j)) -> back j = copy j.
Proof.
  intros j S. unfold back, copy, back_ses, copy_ses. rewrite back_all_copy; auto. destruct S as [S _]. rewrite Forall_forall in *. intros o O. apply nothing_holds. auto.
Qed.

(** Nine decimals. *)
Lemma half_even_near : forall q, (Qabs (inject_Z (half_even q) - q) <= 1 # 2)%Q.
Proof.
  intro q. unfold half_even. pose proof (Qfloor_le q) as A. pose proof (Qlt_floor q) as B. rewrite inject_Z_plus in B. change (inject_Z 1) with 1%Q in B.
  apply Qabs_Qle_condition. destruct (Qcompare_spec (q - inject_Z (Qfloor q)) (1 # 2)) as [C|C|C].
  - destruct (Z.even (Qfloor q)); rewrite ?inject_Z_plus; change (inject_Z 1) with 1%Q; lra.
  - lra.
  - rewrite inject_Z_plus. change (inject_Z 1) with 1%Q. lra.
Qed.
Lemma decimals_near : forall n q, (Qabs (decimals n q - q) <= / inject_Z (2 * 10 ^ Z.of_nat n))%Q.
Proof.
  intros n q. unfold decimals. set (p := 10 ^ Z.of_nat n). assert (P : 0 < p) by (apply Z.pow_pos_nonneg; lia).
  assert (N : ~ (inject_Z p == 0)%Q) by (intro X; unfold Qeq in X; cbn in X; lia).
  assert (G : forall r, (Qabs (Qmake (half_even (r * inject_Z p)) (Z.to_pos p) - r) <= / inject_Z (2 * p))%Q).
  { intro r. pose proof (half_even_near (r * inject_Z p)) as H. set (k := half_even (r * inject_Z p)) in *.
    assert (E : (k # Z.to_pos p == inject_Z k / inject_Z p)%Q) by (rewrite Qmake_Qdiv, Z2Pos.id by lia; reflexivity).
    assert (X : ((k # Z.to_pos p) - r == (inject_Z k - r * inject_Z p) / inject_Z p)%Q) by (rewrite E; field; auto).
    rewrite X. unfold Qdiv. rewrite Qabs_Qmult. assert (I : (0 < / inject_Z p)%Q) by (apply Qinv_lt_0_compat; rewrite <- (Zlt_Qlt 0); auto).
    rewrite (Qabs_pos (/ inject_Z p)) by lra. assert (J : (/ inject_Z (2 * p) == (1 # 2) * / inject_Z p)%Q) by (rewrite inject_Z_mult; change (inject_Z 2) with 2%Q; field; auto).
    rewrite J. apply Qmult_le_compat_r; [auto|lra]. }
  destruct (Qle_bool 0 q); [apply G|]. specialize (G (- q)%Q). rewrite <- (Qabs_opp (_ - _)). assert (E : (- (- (half_even (- q * inject_Z p) # Z.to_pos p) - q) == (half_even (- q * inject_Z p) # Z.to_pos p) - - q)%Q) by ring.
  rewrite E. exact G.
Qed.
Lemma half_even_Z : forall q k, (q == inject_Z k)%Q -> half_even q = k.
Proof.
  intros q k H. unfold half_even. assert (F : Qfloor q = k) by (rewrite H; apply Qfloor_Z). rewrite F. destruct (Qcompare_spec (q - inject_Z k) (1 # 2)) as [C|C|C]; auto; rewrite H in C; exfalso; [|lra].
  assert (X : (inject_Z k - inject_Z k == 0)%Q) by ring. rewrite X in C. discriminate C.
Qed.
Lemma decimals_exact : forall n k q, (q * inject_Z (10 ^ Z.of_nat n) == inject_Z k)%Q -> (decimals n q == q)%Q.
Proof.
  intros n k q. unfold decimals. set (p := 10 ^ Z.of_nat n). assert (P : 0 < p) by (apply Z.pow_pos_nonneg; lia). intro H.
  assert (N : ~ (inject_Z p == 0)%Q) by (intro X; unfold Qeq in X; cbn in X; lia).
  assert (G : forall r m, (r * inject_Z p == inject_Z m)%Q -> (half_even (r * inject_Z p) # Z.to_pos p == r)%Q).
  { intros r m R. rewrite (half_even_Z _ m R). rewrite Qmake_Qdiv, Z2Pos.id by lia. rewrite <- R. field. auto. }
  destruct (Qle_bool 0 q); [apply (G q k H)|]. rewrite (G (- q)%Q (- k)); [ring|]. rewrite inject_Z_opp, <- H. ring.
Qed.
