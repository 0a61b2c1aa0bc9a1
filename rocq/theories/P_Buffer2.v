(** Proofs about the frame buffer, part 2: completeness, flush, late frames,
    reset, memory bound, reordering, and the five concrete classes. *)
From Coq Require Import List ZArith Bool Lia Permutation Sorted.
From Verif Require Import M_Buffer M_BufferModes S_Buffer P_Buffer.
Import ListNotations.
Open Scope Z_scope.

Section Complete.
Context {F : Type} (M : ops F) (C : cfg) (L : lawful M C).

Local Notation mid := (o_mid M).
Local Notation good l := (NoDup (map mid l) /\ incl (map mid l) (c_possible C)).

Lemma good_length : forall l : list F, good l -> (length l <= c_nframes C)%nat.
Proof.
  intros l [H1 H2]. rewrite (lw_count _ _ L). rewrite <- (map_length mid).
  apply NoDup_incl_length; auto.
Qed.

Lemma get_key_complete : forall s k s' o l, WInv M s -> AllValid M s ->
  lookup k (s_buf s) = Some l -> good l -> get_key M C s k = Ok (s', o) ->
  one_per_id mid (c_possible C) o /\
  s_missing s' = s_missing s + count_invalid (o_valid M) o /\
  Permutation (filter (o_valid M) o) l /\ s_dropped s' = s_dropped s.
Proof.
  intros s k s' o l HW HV Hl Hg H.
  destruct (get_key_cases M C _ _ _ _ H) as (l' & out & fu & pa & dr & mi & L' & -> & -> & HC).
  rewrite Hl in L'. inversion L'; subst l'; clear L'.
  pose proof (good_length l Hg) as Hlen.
  assert (HVl : forall f, In f l -> o_valid M f = true).
  { intros f Hf. apply HV. unfold buffered.
    eapply Permutation_in; [symmetry; apply (remove_key_perm _ _ _ Hl)|]. apply in_app_iff; auto. }
  destruct (w_entry _ _ HW _ _ (lookup_In _ _ _ Hl)) as [Hne _].
  pose proof (maybe_sort_perm M C out) as Hms.
  destruct Hg as [Hg1 Hg2].
  pose proof (missing_spec M C l Hg1 Hg2 (lw_nodup _ _ L)) as HP.
  unfold one_per_id, count_invalid. simpl.
  destruct HC as [(E & -> & -> & -> & -> & ->)|[(E & -> & -> & -> & -> & ->)|(E & _)]]; [| |lia].
  - pose proof (Permutation_length HP) as HL. rewrite app_length, map_length in HL.
    rewrite <- (lw_count _ _ L), E in HL.
    assert (Hm0 : missing_list M C l = []) by (apply length_zero_iff_nil; lia).
    rewrite Hm0, app_nil_r in HP. split; [|split; [|split]]; auto.
    + rewrite Hms. exact HP.
    + rewrite (Permutation_length (filter_perm _ _ _ _ Hms)).
      rewrite filter_none; [simpl; lia|]. intros f Hf. rewrite HVl by auto. auto.
    + rewrite (filter_perm _ _ _ _ Hms). rewrite filter_all; auto.
  - destruct l as [|t r]; [congruence|].
    assert (Hmap : map mid (map (o_fill M t) (missing_list M C (t :: r))) = missing_list M C (t :: r)).
    { rewrite map_map. rewrite <- (map_id (missing_list M C (t :: r))) at 2.
      apply map_ext_in. intros i Hi. apply (lw_mid _ _ L).
      unfold missing_list in Hi. apply filter_In in Hi. tauto. }
    assert (Hi0 : forall f, In f (map (o_fill M t) (missing_list M C (t :: r))) -> o_valid M f = false).
    { intros f Hf. apply in_map_iff in Hf. destruct Hf as (i & <- & _). apply (lw_valid _ _ L). }
    pose proof (Permutation_length HP) as HL. rewrite app_length, map_length in HL.
    rewrite <- (lw_count _ _ L) in HL.
    split; [|split; [|split]]; auto.
    + rewrite Hms, map_app, Hmap. exact HP.
    + rewrite (Permutation_length (filter_perm _ _ _ _ Hms)), filter_app.
      rewrite filter_none, filter_all.
      * simpl app. rewrite map_length. lia.
      * intros f Hf. rewrite Hi0 by auto. auto.
      * intros f Hf. rewrite HVl by auto. auto.
    + rewrite (filter_perm _ _ _ _ Hms), filter_app, filter_all by auto.
      rewrite filter_none by auto. rewrite app_nil_r. auto.
Qed.

(** Distinct (timestamp, identifier) pairs make every buffered entry good. *)
Definition fresh (A : list F) : Prop :=
  NoDup (map (fun f => (o_fom M f, mid f)) A) /\ forall f, In f A -> In (mid f) (c_possible C).

Lemma fresh_sub : forall X A, fresh (X ++ A) -> fresh A.
Proof.
  intros X A [H1 H2]. split.
  - rewrite map_app in H1. clear H2. induction X as [|x X IH]; simpl in *; auto.
    inversion H1; auto.
  - intros f Hf. apply H2. apply in_app_iff; auto.
Qed.

Lemma fresh_perm : forall A B, Permutation A B -> fresh A -> fresh B.
Proof.
  intros A B HP [H1 H2]. split.
  - eapply Permutation_NoDup; [|exact H1]. apply Permutation_map; auto.
  - intros f Hf. apply H2. eapply Permutation_in; [symmetry|]; eauto.
Qed.

Lemma fresh_entry : forall s k l, WInv M s -> fresh (buffered s) -> lookup k (s_buf s) = Some l -> good l.
Proof.
  intros s k l HW HF Hl. destruct (w_entry _ _ HW _ _ (lookup_In _ _ _ Hl)) as [_ Hk].
  pose proof (remove_key_perm _ _ _ Hl) as HP.
  assert (HFl : fresh l).
  { apply (fresh_sub (concat (map snd (remove_key k (s_buf s))))).
    eapply fresh_perm; [|exact HF]. unfold buffered. rewrite HP. apply Permutation_app_comm. }
  destruct HFl as [H1 H2]. split.
  - clear - H1 Hk. induction l as [|f r IH]; simpl in *; [constructor|].
    inversion H1 as [|? ? Hn Hd]; subst. constructor.
    + intro Hi. apply Hn. apply in_map_iff in Hi. destruct Hi as (g & Hg1 & Hg2).
      apply in_map_iff. exists g. split; auto. rewrite Hg1. f_equal.
      rewrite (Hk g), (Hk f); auto.
    + apply IH; auto.
  - intros i Hi. apply in_map_iff in Hi. destruct Hi as (f & <- & Hf). auto.
Qed.

(** One output set of the run. *)
Definition set_ok (o : list F) : Prop :=
  one_per_id mid (c_possible C) o /\ one_stamp (o_fom M) o.

Lemma get_key_set_ok : forall s k s' o, WInv M s -> AllValid M s -> fresh (buffered s) ->
  get_key M C s k = Ok (s', o) ->
  set_ok o /\ s_missing s' = s_missing s + count_invalid (o_valid M) o /\
  WInv M s' /\ AllValid M s' /\ fresh (buffered s') /\ s_dropped s' = s_dropped s.
Proof.
  intros s k s' o HW HV HF H.
  destruct (get_key_cases M C _ _ _ _ H) as (l & out & fu & pa & dr & mi & Hl & _).
  pose proof (fresh_entry _ _ _ HW HF Hl) as Hg.
  destruct (get_key_complete _ _ _ _ _ HW HV Hl Hg H) as (H1 & H2 & H3 & H4).
  destruct (get_key_WInv M C (lw_seg _ _ L) _ _ _ _ HW H) as (HW' & _ & Hb & _).
  destruct (get_key_out M C (lw_fom _ _ L) _ _ _ _ HW H) as [Ho1 Ho2].
  destruct (get_key_conserves M C (lw_valid _ _ L) _ _ _ _ HV H) as (dr' & _ & _ & HV' & _).
  split; [|split; [|split; [|split; [|split]]]]; auto.
  - split; auto. split; auto. intros f g Hf Hg'. rewrite (Ho2 f), (Ho2 g); auto.
  - unfold buffered. rewrite Hb. apply (fresh_sub l). eapply fresh_perm; [|exact HF].
    apply remove_key_perm; auto.
Qed.

Lemma count_invalid_app : forall a b, count_invalid (o_valid M) (a ++ b) =
  count_invalid (o_valid M) a + count_invalid (o_valid M) b.
Proof. intros. unfold count_invalid. rewrite filter_app, app_length. lia. Qed.

Lemma flush_keys_set_ok : forall ks s s' outs, WInv M s -> AllValid M s -> fresh (buffered s) ->
  flush_keys M C s ks = Ok (s', outs) ->
  Forall set_ok outs /\ s_missing s' = s_missing s + count_invalid (o_valid M) (concat outs) /\
  WInv M s' /\ AllValid M s' /\ fresh (buffered s') /\ s_dropped s' = s_dropped s.
Proof.
  induction ks as [|k r IH]; simpl; intros s s' outs HW HV HF H.
  - inversion H; subst. split; [constructor|]. split; [unfold count_invalid; simpl; lia|]. auto.
  - destruct (get_key M C s k) as [[s1 o]|] eqn:G; [|congruence].
    destruct (flush_keys M C s1 r) as [[s2 os]|] eqn:E; [|congruence].
    inversion H; subst; clear H.
    destruct (get_key_set_ok _ _ _ _ HW HV HF G) as (Ho & Hm & HW1 & HV1 & HF1 & HD1).
    destruct (IH _ _ _ HW1 HV1 HF1 E) as (Hos & Hms & HW2 & HV2 & HF2 & HD2).
    simpl. rewrite count_invalid_app.
    split; [constructor; auto|]. split; [lia|]. split; auto. split; auto. split; auto. lia.
Qed.

Lemma flush_keys_WInv : forall ks s s' outs, WInv M s -> flush_keys M C s ks = Ok (s', outs) -> WInv M s'.
Proof.
  induction ks as [|k r IH]; simpl; intros s s' outs HW H.
  - inversion H; subst; auto.
  - destruct (get_key M C s k) as [[s1 o]|] eqn:G; [|congruence].
    destruct (flush_keys M C s1 r) as [[s2 os]|] eqn:E; [|congruence].
    inversion H; subst. eapply IH; [|exact E].
    eapply get_key_WInv; eauto. apply (lw_seg _ _ L).
Qed.

(** [flush] empties the buffer and returns one set per buffered timestamp, in insertion order. *)
Lemma flush_keys_drains : forall ks s, WInv M s -> keys (s_buf s) = ks ->
  exists s' outs, flush_keys M C s ks = Ok (s', outs) /\ s_buf s' = [] /\ WInv M s' /\
    length outs = length ks /\
    Forall2 (fun k o => o <> [] /\ forall f, In f o -> o_fom M f = k) ks outs.
Proof.
  induction ks as [|k r IH]; simpl; intros s HW Hk.
  - exists s, []. split; auto. split; [|auto]. unfold keys in Hk. apply map_eq_nil in Hk. auto.
  - assert (Hin : In k (keys (s_buf s))) by (rewrite Hk; simpl; auto).
    destruct (get_key_total M C s k Hin) as (s1 & o & G). rewrite G.
    destruct (get_key_WInv M C (lw_seg _ _ L) _ _ _ _ HW G) as (HW1 & _ & Hb & _).
    assert (Hk1 : keys (s_buf s1) = r).
    { rewrite Hb. destruct (s_buf s) as [|[k0 l0] b]; simpl in Hk; [congruence|].
      inversion Hk; subst. simpl. rewrite Z.eqb_refl. auto. }
    destruct (IH s1 HW1 Hk1) as (s2 & os & E & Hemp & HW2 & Hlen & Hall). rewrite E.
    exists s2, (o :: os). split; auto. split; auto. split; auto. split; [simpl; auto|].
    constructor; auto. exact (get_key_out M C (lw_fom _ _ L) _ _ _ _ HW G).
Qed.

Lemma empty_Inv : forall s, WInv M s -> s_buf s = [] -> Inv M s.
Proof. intros s HW He. split; auto. intros d k _ Hk. rewrite He in Hk. destruct Hk. Qed.

Lemma step_set_ok : forall s o s' out, Inv M s -> AllValid M s -> fresh (appended [o] ++ buffered s) ->
  Forall (fun f => o_valid M f = true) (appended [o]) -> no_reset o ->
  step M C s o = Ok (s', out) ->
  Forall set_ok out /\ s_missing s' = s_missing s + count_invalid (o_valid M) (concat out) /\
  Inv M s' /\ AllValid M s' /\ exists X, Permutation (appended [o] ++ buffered s) (X ++ buffered s').
Proof.
  intros s o s' out HI HV HF Hval Ho H.
  pose proof (step_conserves M C (lw_valid _ _ L) _ _ _ _ HV Ho Hval H) as (dr & _ & HP & HV' & _).
  assert (HX : exists X, Permutation (appended [o] ++ buffered s) (X ++ buffered s')).
  { exists (dr ++ filter (o_valid M) (concat out)). rewrite HP, <- !app_assoc.
    apply Permutation_app_head. apply Permutation_app_comm. }
  destruct o as [fs| | |]; simpl in Ho; try tauto; simpl in H.
  - destruct (append M s fs) as [s1|] eqn:E; [|congruence]. inversion H; subst.
    split; auto. split.
    { simpl. unfold count_invalid. simpl. clear - E. rewrite Z.add_0_r.
      revert s E. induction fs as [|f r IH]; simpl; intros s E; [congruence|].
      destruct (append_one M s f) as [s1|] eqn:E1; [|congruence].
      rewrite (IH _ E). unfold append_one in E1. destruct (deque_last (s_done s)); [|congruence].
      destruct (_ <=? _); inversion E1; reflexivity. }
    split; [eapply append_Inv; eauto|]. auto.
  - unfold get in H. destruct (peek C true s) as [k|] eqn:P.
    + destruct (get_key M C s k) as [[s1 o]|] eqn:G; [|congruence]. inversion H; subst; clear H.
      simpl in HF.
      destruct (get_key_set_ok _ _ _ _ (i_weak _ _ HI) HV HF G) as (Hs & Hm & _ & _ & _ & _).
      simpl concat. rewrite app_nil_r. split; auto. split; auto. split; [|auto].
      eapply (get_Inv M C (lw_seg _ _ L) s s' (Some o)); auto. unfold get. rewrite P, G. auto.
    + inversion H; subst. split; auto. split; [unfold count_invalid; simpl; lia|]. auto.
  - unfold flush in H. simpl in HF.
    destruct (flush_keys_set_ok _ _ _ _ (i_weak _ _ HI) HV HF H) as (Hs & Hm & HW' & _ & _ & _).
    split; auto. split; auto. split; auto.
    destruct (flush_keys_drains _ s (i_weak _ _ HI) eq_refl) as (s2 & os2 & E2 & Hemp & _).
    rewrite H in E2. inversion E2; subst. apply empty_Inv; auto.
Qed.

Lemma run_set_ok : forall os s s' outs, Inv M s -> AllValid M s -> fresh (appended os ++ buffered s) ->
  Forall (fun f => o_valid M f = true) (appended os) -> Forall no_reset os ->
  run M C s os = Ok (s', outs) ->
  Forall set_ok outs /\ s_missing s' = s_missing s + count_invalid (o_valid M) (concat outs) /\ Inv M s'.
Proof.
  induction os as [|o r IH]; intros s s' outs HI HV HF Hval Ho H.
  - simpl in H. inversion H; subst. split; auto. split; [unfold count_invalid; simpl; lia|auto].
  - rewrite appended_cons in *. apply Forall_app in Hval. destruct Hval as [Hv1 Hv2].
    inversion Ho as [|? ? Ho1 Ho2]; subst. simpl in H.
    destruct (step M C s o) as [[s1 out]|] eqn:E; [|congruence].
    destruct (run M C s1 r) as [[s2 outs2]|] eqn:E2; [|congruence].
    inversion H; subst; clear H.
    assert (HFo : fresh (appended [o] ++ buffered s)).
    { apply (fresh_sub (appended r)). eapply fresh_perm; [|exact HF].
      rewrite !app_assoc. apply Permutation_app_tail. apply Permutation_app_comm. }
    destruct (step_set_ok _ _ _ _ HI HV HFo Hv1 Ho1 E) as (H1 & H2 & HI1 & HV1 & X & HX).
    assert (HF1 : fresh (appended r ++ buffered s1)).
    { apply (fresh_sub X). eapply fresh_perm; [|exact HF].
      transitivity (appended r ++ (appended [o] ++ buffered s)).
      { rewrite !app_assoc. apply Permutation_app_tail. apply Permutation_app_comm. }
      rewrite HX, !app_assoc. apply Permutation_app_tail. apply Permutation_app_comm. }
    destruct (IH _ _ _ HI1 HV1 HF1 Hv2 Ho2 E2) as (H3 & H4 & HI2).
    rewrite concat_app, count_invalid_app. split; [apply Forall_app; auto|]. split; [lia|auto].
Qed.

(** No history without reset ever raises. *)
Lemma step_total : forall s o, Inv M s -> exists s' out, step M C s o = Ok (s', out) /\ Inv M s'.
Proof.
  intros s o HI. destruct o as [fs| | |]; simpl.
  - destruct (append_total M fs s (i_weak _ _ HI)) as [s' E]. rewrite E. exists s', [].
    split; auto. eapply append_Inv; eauto.
  - destruct (get_total M C s) as (s' & o & E). rewrite E.
    pose proof (get_Inv M C (lw_seg _ _ L) _ _ _ HI E). destruct o; eauto.
  - destruct (flush_keys_drains _ s (i_weak _ _ HI) eq_refl) as (s2 & os2 & E2 & Hemp & HW & _).
    exists s2, os2. split; auto. apply empty_Inv; auto.
  - eexists _, []. split; auto. apply reset_Inv. apply (lw_seg _ _ L).
Qed.

Lemma run_total : forall os s, Inv M s -> exists s' outs, run M C s os = Ok (s', outs) /\ Inv M s'.
Proof.
  induction os as [|o r IH]; intros s HI; simpl.
  - eauto.
  - destruct (step_total s o HI) as (s1 & out & E & HI1). rewrite E.
    destruct (IH s1 HI1) as (s2 & outs & E2 & HI2). rewrite E2. eauto.
Qed.
End Complete.

(** ** Simulation: only the buffered sets and the newest emission matter *)
Section Sim.
Context {F : Type} (M : ops F) (C : cfg) (P : F -> Prop).
Context (Hseg : (1 <= c_nseg C)%nat).

(** [d1] and [d2] decide every frame of interest the same way. *)
Definition same_floor (s1 s2 : st F) : Prop :=
  exists d1 d2, deque_last (s_done s1) = Some d1 /\ deque_last (s_done s2) = Some d2 /\
    forall f, P f -> (o_fom M f <=? d1) = (o_fom M f <=? d2).
Definition sim (s1 s2 : st F) : Prop := s_buf s1 = s_buf s2 /\ same_floor s1 s2.

Definition same_out {A} (r1 r2 : res (st F * A)) : Prop :=
  match r1, r2 with
  | Ok (s1, a), Ok (s2, b) => a = b /\ sim s1 s2
  | Raise e, Raise e' => e = e'
  | _, _ => False
  end.

Lemma append_one_sim : forall s1 s2 f, sim s1 s2 -> P f ->
  match append_one M s1 f, append_one M s2 f with
  | Ok a, Ok b => sim a b | _, _ => False end.
Proof.
  intros s1 s2 f [Hb (d1 & d2 & H1 & H2 & H)] Hf. unfold append_one. rewrite H1, H2, (H f Hf).
  destruct (_ <=? _); split; simpl; auto; try (exists d1, d2; simpl; auto).
  rewrite Hb. auto.
Qed.

Lemma append_sim : forall fs s1 s2, sim s1 s2 -> Forall P fs ->
  match append M s1 fs, append M s2 fs with
  | Ok a, Ok b => sim a b | _, _ => False end.
Proof.
  induction fs as [|f r IH]; simpl; intros s1 s2 HS HF; auto.
  inversion HF; subst. pose proof (append_one_sim s1 s2 f HS) as HA.
  destruct (append_one M s1 f), (append_one M s2 f); try tauto. apply IH; auto.
Qed.

Lemma get_key_sim : forall s1 s2 k, sim s1 s2 -> same_out (get_key M C s1 k) (get_key M C s2 k).
Proof.
  intros s1 s2 k [Hb HS]. unfold get_key. rewrite Hb.
  destruct (lookup k (s_buf s2)) as [l|]; [|reflexivity].
  assert (HK : forall a b c d a' b' c' d',
     sim (mkSt (remove_key k (s_buf s2)) (deque_append (c_nseg C) (s_done s1) k) a b c d)
         (mkSt (remove_key k (s_buf s2)) (deque_append (c_nseg C) (s_done s2) k) a' b' c' d')).
  { intros. split; simpl; auto. exists k, k. simpl.
    rewrite !deque_last_append by auto. auto. }
  destruct (Nat.eqb _ _); [split; auto|]. destruct (Nat.ltb _ _); [split; auto|].
  destruct (dedupe M [] l); split; auto.
Qed.

Lemma get_sim : forall s1 s2, sim s1 s2 -> same_out (get M C s1) (get M C s2).
Proof.
  intros s1 s2 HS. pose proof HS as [Hb _]. unfold get, peek, filled. rewrite Hb.
  destruct (_ && _); [split; auto|]. destruct (min_key _) as [k|]; [|split; auto].
  pose proof (get_key_sim s1 s2 k HS) as HG. unfold same_out in *.
  destruct (get_key M C s1 k) as [[a x]|], (get_key M C s2 k) as [[b y]|]; try tauto.
  destruct HG as [-> HG]. auto.
Qed.

Lemma flush_keys_sim : forall ks s1 s2, sim s1 s2 -> same_out (flush_keys M C s1 ks) (flush_keys M C s2 ks).
Proof.
  induction ks as [|k r IH]; simpl; intros s1 s2 HS; [split; auto|].
  pose proof (get_key_sim s1 s2 k HS) as HG. unfold same_out in HG.
  destruct (get_key M C s1 k) as [[a x]|], (get_key M C s2 k) as [[b y]|]; try tauto.
  destruct HG as [-> HG]. specialize (IH a b HG). unfold same_out in *.
  destruct (flush_keys M C a r) as [[a' x']|], (flush_keys M C b r) as [[b' y']|]; try tauto.
  destruct IH as [-> IH]. auto.
Qed.

Lemma step_sim : forall s1 s2 o, sim s1 s2 -> Forall P (appended [o]) -> same_out (step M C s1 o) (step M C s2 o).
Proof.
  intros s1 s2 o HS HP. destruct o as [fs| | |]; simpl in *.
  - rewrite app_nil_r in HP. pose proof (append_sim fs s1 s2 HS HP) as HA.
    destruct (append M s1 fs), (append M s2 fs); try tauto. split; auto.
  - pose proof (get_sim s1 s2 HS) as HG. unfold same_out in HG.
    destruct (get M C s1) as [[a [x|]]|], (get M C s2) as [[b [y|]]|]; simpl; try tauto;
      destruct HG as [HG HG']; inversion HG; subst; auto.
  - unfold flush. rewrite (proj1 HS). apply flush_keys_sim; auto.
  - split; auto. split; auto. exists 0, 0. simpl. rewrite deque_last_append by auto. auto.
Qed.

Lemma run_sim : forall os s1 s2, sim s1 s2 -> Forall P (appended os) -> same_out (run M C s1 os) (run M C s2 os).
Proof.
  induction os as [|o r IH]; intros s1 s2 HS HP; [split; auto|].
  rewrite appended_cons in HP. apply Forall_app in HP. destruct HP as [HP1 HP2].
  pose proof (step_sim s1 s2 o HS HP1) as H. simpl. unfold same_out in *.
  destruct (step M C s1 o) as [[a x]|], (step M C s2 o) as [[b y]|]; try tauto.
  destruct H as [-> H]. specialize (IH a b H HP2).
  destruct (run M C a r) as [[a' x']|], (run M C b r) as [[b' y']|]; try tauto.
  destruct IH as [-> IH]. auto.
Qed.
End Sim.

Lemma same_out_outputs : forall F (M : ops F) P r1 r2, same_out M P r1 r2 -> outputs r1 = outputs r2.
Proof.
  intros F M P [[s1 a]|e1] [[s2 b]|e2]; simpl; try tauto.
  - intros [-> _]. auto.
  - intros ->. auto.
Qed.

Lemma run_app : forall F (M : ops F) C os1 os2 s,
  run M C s (os1 ++ os2) = match run M C s os1 with
    | Ok (s1, o1) => match run M C s1 os2 with Ok (s2, o2) => Ok (s2, o1 ++ o2) | Raise e => Raise e end
    | Raise e => Raise e end.
Proof.
  induction os1 as [|o r IH]; intros os2 s; simpl.
  - destruct (run M C s os2) as [[? ?]|]; auto.
  - destruct (step M C s o) as [[s1 out]|]; auto. rewrite IH.
    destruct (run M C s1 r) as [[s2 o2]|]; auto.
    destruct (run M C s2 os2) as [[s3 o3]|]; auto. rewrite app_assoc. auto.
Qed.

Section Late.
Context {F : Type} (M : ops F) (C : cfg) (Hseg : (1 <= c_nseg C)%nat)
        (Hfom : forall t i, o_fom M (o_fill M t i) = o_fom M t).

Definition bump_dropped (s : st F) : st F :=
  mkSt (s_buf s) (s_done s) (s_full s) (s_partial s) (s_dropped s + 1) (s_missing s).

Lemma late_or_kept : forall fl os s outs f, Forall app_or_get os -> run M C (init C fl) os = Ok (s, outs) ->
  append M s [f] = Ok (if o_fom M f <=? last_stamp (o_fom M) fl outs then bump_dropped s
    else mkSt (add_frame (o_fom M f) f (s_buf s)) (s_done s) (s_full s) (s_partial s) (s_dropped s) (s_missing s)).
Proof.
  intros fl os s outs f Ho H.
  destruct (run_R M C Hseg Hfom os [] fl (init C fl) (R_init M C Hseg fl) Ho) as (s' & outs' & E & HR & _).
  rewrite H in E. inversion E; subst s' outs'. destruct HR as (_ & Hd & _).
  simpl. unfold append_one. rewrite Hd. destruct (_ <=? _); auto.
Qed.

(** A frame at or before any emitted frame: one more dropped, nothing else. *)
Lemma late_dropped : forall fl os s outs l g f os',
  Forall app_or_get os -> run M C (init C fl) os = Ok (s, outs) ->
  In l outs -> In g l -> o_fom M f <= o_fom M g ->
  run M C (init C fl) (os ++ [OAppend [f]]) = Ok (bump_dropped s, outs) /\
  outputs (run M C (init C fl) (os ++ OAppend [f] :: os')) = outputs (run M C (init C fl) (os ++ os')).
Proof.
  intros fl os s outs l g f os' Ho H Hl Hg Hle.
  assert (Hlast : o_fom M f <= last_stamp (o_fom M) fl outs).
  { destruct (init_Inv M C Hseg fl) as [HW HN].
    destruct (run_order M C Hseg Hfom os (init C fl) fl) as (s' & outs' & E & _ & HS & HF & HC); auto.
    { split; auto. } { simpl. destruct (c_nseg C); [lia|]. auto. }
    rewrite H in E. inversion E; subst s' outs'.
    assert (Hne : outs <> []) by (intros ->; destruct Hl).
    destruct (exists_last Hne) as (pre & x & ->).
    unfold last_stamp. rewrite last_last.
    rewrite Forall_forall in HF, HC.
    assert (Hx : In x (pre ++ [x])) by (apply in_app_iff; simpl; auto).
    destruct (HF x Hx) as [Hxne _]. destruct x as [|h x]; [congruence|].
    apply in_app_iff in Hl. destruct Hl as [Hl|[<-|[]]].
    - assert (o_fom M g < o_fom M h); [|lia]. clear - HS Hl Hg.
      induction pre as [|p pre IH]; [destruct Hl|]. simpl in HS. inversion HS as [|? ? HS' HA]; subst.
      destruct Hl as [->|Hl]; auto. rewrite Forall_forall in HA.
      apply (HA (h :: x)); simpl; auto. apply in_app_iff; simpl; auto.
    - rewrite (HC _ Hx h g); simpl; auto. }
  pose proof (late_or_kept fl os s outs f Ho H) as HA.
  destruct (Z.leb_spec (o_fom M f) (last_stamp (o_fom M) fl outs)) as [_|]; [|lia].
  split.
  - rewrite run_app, H. simpl in *. destruct (append_one M s f) as [s1|]; [|congruence].
    inversion HA; subst. rewrite app_nil_r. auto.
  - rewrite !run_app, H. simpl in *. destruct (append_one M s f) as [s1|]; [|congruence].
    inversion HA; subst s1.
    assert (HS : same_out M (fun _ => True) (run M C (bump_dropped s) os') (run M C s os')).
    { apply run_sim; auto; [|apply Forall_forall; auto]. split; auto.
      destruct (run_R M C Hseg Hfom os [] fl (init C fl) (R_init M C Hseg fl) Ho) as (s' & outs' & E & HR & _).
      rewrite H in E. inversion E; subst s' outs'. destruct HR as (_ & Hd & _).
      exists (last_stamp (o_fom M) fl outs), (last_stamp (o_fom M) fl outs). auto. }
    apply same_out_outputs in HS. unfold outputs in *.
    destruct (run M C (bump_dropped s) os') as [[? ?]|], (run M C s os') as [[? ?]|];
      simpl in *; inversion HS; subst; auto.
Qed.

(** reset() behaves like a new buffer whose floor is 0. *)
Lemma reset_like_new : forall s os, outputs (run M C (reset C s) os) = outputs (run M C (init C 0) os).
Proof.
  intros s os. apply (same_out_outputs F M (fun _ => True)). apply run_sim; auto.
  - split; auto. exists 0, 0. simpl. rewrite deque_last_append by auto.
    destruct (c_nseg C); [lia|]. auto.
  - apply Forall_forall; auto.
Qed.

(** ... and like one with floor [fl] as long as all frames are newer than [fl]. *)
Lemma reset_like_new_floor : forall fl s os, 0 <= fl -> Forall (fun f => fl < o_fom M f) (appended os) ->
  outputs (run M C (reset C s) os) = outputs (run M C (init C fl) os).
Proof.
  intros fl s os Hfl HF. apply (same_out_outputs F M (fun f => fl < o_fom M f)). apply run_sim; auto.
  split; auto. exists 0, fl. simpl. rewrite deque_last_append by auto.
  destruct (c_nseg C); [lia|]. split; auto. split; auto. intros f Hf.
  destruct (Z.leb_spec (o_fom M f) 0), (Z.leb_spec (o_fom M f) fl); auto; lia.
Qed.

(** *** Memory bound *)
Lemma append_len : forall fs s s', (forall f g, In f fs -> In g fs -> o_fom M f = o_fom M g) ->
  append M s fs = Ok s' -> (length (s_buf s') <= S (length (s_buf s)))%nat.
Proof.
  assert (Hone : forall f s s', append_one M s f = Ok s' ->
     (length (s_buf s') <= S (length (s_buf s)))%nat /\
     (In (o_fom M f) (keys (s_buf s)) -> length (s_buf s') = length (s_buf s)) /\
     (forall k, In k (keys (s_buf s)) -> In k (keys (s_buf s'))) /\
     (length (s_buf s') = length (s_buf s) \/ In (o_fom M f) (keys (s_buf s')))).
  { intros f s s' H. unfold append_one in H. destruct (deque_last (s_done s)); [|congruence].
    destruct (_ <=? _); inversion H; subst; clear H; simpl.
    - repeat split; auto.
    - destruct (in_dec Z.eq_dec (o_fom M f) (keys (s_buf s))) as [Hi|Hi].
      + assert (E : length (add_frame (o_fom M f) f (s_buf s)) = length (s_buf s)).
        { pose proof (add_frame_keys_in _ f _ Hi) as E. unfold keys in E.
          rewrite <- (map_length fst), E, map_length. auto. }
        rewrite E. repeat split; auto. intros k Hk. apply add_frame_keys_In. auto.
      + rewrite add_frame_new by auto. rewrite app_length. simpl. split; [lia|]. split; [tauto|].
        split.
        * intros k Hk. unfold keys. rewrite map_app. apply in_app_iff. auto.
        * right. unfold keys. rewrite map_app. apply in_app_iff. simpl. auto. }
  assert (Hmany : forall fs k s s', (forall f, In f fs -> o_fom M f = k) -> In k (keys (s_buf s)) ->
     append M s fs = Ok s' -> length (s_buf s') = length (s_buf s)).
  { induction fs as [|f r IH]; simpl; intros k s s' Hk Hi H; [congruence|].
    destruct (append_one M s f) as [s1|] eqn:E; [|congruence].
    destruct (Hone _ _ _ E) as (_ & H2 & H3 & _). rewrite <- H2 by (rewrite Hk; auto).
    eapply IH; eauto. }
  induction fs as [|f r IH]; simpl; intros s s' Hs H.
  - inversion H; subst. lia.
  - destruct (append_one M s f) as [s1|] eqn:E; [|congruence].
    destruct (Hone _ _ _ E) as (H1 & H2 & H3 & [H4|H4]).
    + rewrite <- H4. apply IH; auto.
    + rewrite (Hmany r (o_fom M f) s1 s'); auto.
Qed.

Lemma get_len : forall s s' o, WInv M s -> get M C s = Ok (s', o) -> (length (s_buf s) <= c_nseg C)%nat ->
  (length (s_buf s') <= c_nseg C - 1)%nat.
Proof.
  intros s s' o HW H Hl. destruct o as [o|].
  - destruct (get_some _ _ _ _ _ HW H) as (k & P & G & Hge).
    destruct (get_key_WInv M C Hseg _ _ _ _ HW G) as (_ & _ & Hb & Hk). rewrite Hb.
    pose proof (remove_key_length _ _ Hk). lia.
  - apply get_none in H; auto. destruct H as [-> H]. lia.
Qed.

Lemma rounds_bound : forall fss s s' outs, Inv M s -> (length (s_buf s) <= c_nseg C - 1)%nat ->
  Forall (fun fs => forall f g, In f fs -> In g fs -> o_fom M f = o_fom M g) fss ->
  run M C s (rounds fss) = Ok (s', outs) -> Inv M s' /\ (length (s_buf s') <= c_nseg C - 1)%nat.
Proof.
  induction fss as [|fs r IH]; simpl; intros s s' outs HI Hl HF H.
  - inversion H; subst. auto.
  - inversion HF as [|? ? HF1 HF2]; subst.
    destruct (append M s fs) as [s1|] eqn:E; [|congruence].
    pose proof (append_len _ _ _ HF1 E) as Hl1.
    pose proof (append_Inv M _ _ _ HI E) as HI1.
    destruct (get M C s1) as [[s2 o]|] eqn:G; [|congruence].
    assert (Hl2 : (length (s_buf s2) <= c_nseg C - 1)%nat).
    { eapply get_len; eauto. apply HI1. lia. }
    pose proof (get_Inv M C Hseg _ _ _ HI1 G) as HI2.
    destruct o as [o|].
    + destruct (run M C s2 (rounds r)) as [[s3 o3]|] eqn:E3; [|congruence].
      inversion H; subst. eapply IH; eauto.
    + destruct (run M C s2 (rounds r)) as [[s3 o3]|] eqn:E3; [|congruence].
      inversion H; subst. eapply IH; eauto.
Qed.
End Late.

(** ** Reordering *)
Section Sort.
Context {F : Type} (M : ops F).

Lemma insert_sorted : forall f l, StronglySorted (fun a b => o_cmp M a <= o_cmp M b) l ->
  StronglySorted (fun a b => o_cmp M a <= o_cmp M b) (insert_stable M f l).
Proof.
  induction 1 as [|g l HS IH HA]; simpl; [repeat constructor|].
  destruct (Z.leb_spec (o_cmp M f) (o_cmp M g)).
  - constructor; [constructor; auto|]. constructor; auto.
    rewrite Forall_forall in *. intros x Hx. specialize (HA x Hx). lia.
  - constructor; auto. rewrite Forall_forall in *. intros x Hx.
    eapply Permutation_in in Hx; [|apply insert_stable_perm]. destruct Hx as [<-|Hx]; [lia|auto].
Qed.

Lemma sort_sorted : forall l, StronglySorted (fun a b => o_cmp M a <= o_cmp M b) (sort_stable M l).
Proof. induction l as [|f r IH]; simpl; [constructor|apply insert_sorted; auto]. Qed.

Lemma insert_filter : forall v f l, filter (fun x => o_cmp M x =? v) (insert_stable M f l) =
  filter (fun x => o_cmp M x =? v) (f :: l).
Proof.
  induction l as [|g r IH]; simpl; auto.
  destruct (Z.leb_spec (o_cmp M f) (o_cmp M g)); auto. simpl. rewrite IH. simpl.
  destruct (Z.eqb_spec (o_cmp M f) v), (Z.eqb_spec (o_cmp M g) v); auto; lia.
Qed.

Lemma sort_filter : forall v l, filter (fun x => o_cmp M x =? v) (sort_stable M l) =
  filter (fun x => o_cmp M x =? v) l.
Proof.
  induction l as [|f r IH]; simpl; auto. rewrite insert_filter. simpl. rewrite IH. auto.
Qed.
End Sort.
