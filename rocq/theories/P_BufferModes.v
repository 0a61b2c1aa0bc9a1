(** The five concrete buffer classes satisfy the assumptions of the generic theory. *)
From Coq Require Import List ZArith Bool Lia Permutation Sorted.
From Verif Require Import M_Buffer M_BufferModes S_Buffer P_Buffer P_Buffer2.
Import ListNotations.
Open Scope Z_scope.

Definition zrange (n : nat) : list Z := map Z.of_nat (seq 0 n).

Lemma zrange_In : forall n x, 0 <= x < Z.of_nat n -> In x (zrange n).
Proof.
  intros n x H. unfold zrange. apply in_map_iff. exists (Z.to_nat x). split; [lia|].
  apply in_seq. lia.
Qed.

Definition drx_pack (bit6 b u p : Z) : Z :=
  Z.lor (Z.lor (Z.lor (Z.land b 7) (Z.shiftl (Z.land u 7) 3)) bit6) (Z.shiftl (Z.land p 1) 7).

Lemma drx_pack_sweep :
  forallb (fun x => forallb (fun b => forallb (fun u => forallb (fun p =>
    id_eqb (drx_id_tuple (drx_pack x b u p)) [b; u; p]) (zrange 2)) (zrange 8)) (zrange 8)) [0; 64] = true.
Proof. vm_compute. reflexivity. Qed.

Lemma drx_pack_id : forall x b u p, (x = 0 \/ x = 64) -> 0 <= b < 8 -> 0 <= u < 8 -> 0 <= p < 2 ->
  drx_id_tuple (drx_pack x b u p) = [b; u; p].
Proof.
  intros x b u p Hx Hb Hu Hp. pose proof drx_pack_sweep as H.
  rewrite forallb_forall in H. specialize (H x).
  assert (Hi : In x [0; 64]) by (simpl; destruct Hx; auto). specialize (H Hi).
  rewrite forallb_forall in H. specialize (H b (zrange_In 8 b Hb)).
  rewrite forallb_forall in H. specialize (H u (zrange_In 8 u Hu)).
  rewrite forallb_forall in H. specialize (H p (zrange_In 2 p Hp)).
  apply id_eqb_eq in H. exact H.
Qed.

(** *** Expected-frame lists *)
Lemma drx_list_In : forall b u p beams tunes pols,
  In [b; u; p] (drx_frame_list beams tunes pols) <-> In b beams /\ In u tunes /\ In p pols.
Proof.
  intros. unfold drx_frame_list. rewrite in_flat_map. split.
  - intros (b' & Hb & H). apply in_flat_map in H. destruct H as (u' & Hu & H).
    apply in_map_iff in H. destruct H as (p' & E & Hp). inversion E; subst. auto.
  - intros (Hb & Hu & Hp). exists b. split; auto. apply in_flat_map. exists u. split; auto.
    apply in_map_iff. eauto.
Qed.

Lemma drx_list_shape : forall i beams tunes pols, In i (drx_frame_list beams tunes pols) ->
  exists b u p, i = [b; u; p] /\ In b beams /\ In u tunes /\ In p pols.
Proof.
  intros i beams tunes pols H. unfold drx_frame_list in H.
  apply in_flat_map in H. destruct H as (b & Hb & H).
  apply in_flat_map in H. destruct H as (u & Hu & H).
  apply in_map_iff in H. destruct H as (p & E & Hp). subst. exists b, u, p. auto.
Qed.

Lemma length_flat_map_const : forall A B (f : A -> list B) n l, (forall x, In x l -> length (f x) = n) ->
  length (flat_map f l) = (length l * n)%nat.
Proof.
  induction l as [|x r IH]; simpl; intro H; auto.
  rewrite app_length, H, IH; auto.
Qed.

Lemma drx_list_length : forall beams tunes pols,
  length (drx_frame_list beams tunes pols) = (length beams * length tunes * length pols)%nat.
Proof.
  intros. unfold drx_frame_list. rewrite (length_flat_map_const _ _ _ (length tunes * length pols)).
  - lia.
  - intros b _. apply length_flat_map_const. intros u _. apply map_length.
Qed.

Lemma NoDup_flat_map : forall A B (f : A -> list B) l, NoDup l ->
  (forall x, In x l -> NoDup (f x)) ->
  (forall x y z, In x l -> In y l -> In z (f x) -> In z (f y) -> x = y) -> NoDup (flat_map f l).
Proof.
  induction l as [|x r IH]; simpl; intros Hd H1 H2; [constructor|].
  inversion Hd; subst. apply NoDup_app_intro; auto.
  - apply IH; auto. intros a b z Ha Hb. apply H2; auto.
  - intros z Hz Hz'. apply in_flat_map in Hz'. destruct Hz' as (y & Hy & Hzy).
    assert (x = y) by (eapply H2; eauto). subst. auto.
Qed.

Lemma drx_list_NoDup : forall beams tunes pols, NoDup beams -> NoDup tunes -> NoDup pols ->
  NoDup (drx_frame_list beams tunes pols).
Proof.
  intros beams tunes pols Hb Hu Hp. unfold drx_frame_list. apply NoDup_flat_map; auto.
  - intros b _. apply NoDup_flat_map; auto.
    + intros u _. apply FinFun.Injective_map_NoDup; auto. intros x y E. congruence.
    + intros x y z _ _ H1 H2. apply in_map_iff in H1, H2.
      destruct H1 as (? & <- & _), H2 as (? & E & _). congruence.
  - intros x y z _ _ H1 H2. apply in_flat_map in H1, H2.
    destruct H1 as (? & _ & H1), H2 as (? & _ & H2). apply in_map_iff in H1, H2.
    destruct H1 as (? & <- & _), H2 as (? & E & _). congruence.
Qed.

(** Number of pairs (a, b) of a duplicate-free list with b >= a. *)
Definition pairs_le (l : list Z) : list (Z * Z) :=
  flat_map (fun a => flat_map (fun b => if b <? a then [] else [(a, b)]) l) l.

Definition ge_count (a : Z) (l : list Z) : nat := length (filter (fun b => negb (b <? a)) l).

Lemma ge_count_sum : forall x r, ~ In x r ->
  (ge_count x r + length (filter (fun a => negb (x <? a)%Z) r))%nat = length r.
Proof.
  unfold ge_count. induction r as [|y r IH]; simpl; intro H; auto.
  assert (IH' := IH (fun h => H (or_intror h))).
  destruct (Z.ltb_spec y x), (Z.ltb_spec x y); simpl; try lia.
Qed.

Fixpoint nsum (l : list nat) : nat := match l with [] => 0 | x :: r => x + nsum r end.

Lemma nsum_ge : forall l, NoDup l ->
  (2 * nsum (map (fun a => ge_count a l) l) = length l * (length l + 1))%nat.
Proof.
  induction 1 as [|x r Hx Hr IH]; auto.
  simpl map. cbn [nsum].
  assert (E0 : ge_count x (x :: r) = S (ge_count x r)).
  { unfold ge_count. simpl. rewrite Z.ltb_irrefl. auto. }
  assert (E1 : forall q, nsum (map (fun a => ge_count a (x :: r)) q) =
     (nsum (map (fun a => ge_count a r) q) + length (filter (fun a => negb (Z.ltb x a)) q))%nat).
  { induction q as [|y q IHq]; cbn [map nsum filter]; auto. rewrite IHq. unfold ge_count at 1. simpl.
    destruct (x <? y); simpl; unfold ge_count; lia. }
  rewrite E0, E1. pose proof (ge_count_sum x r Hx). simpl length. lia.
Qed.

Lemma length_flat_map_sum : forall A B (f : A -> list B) l,
  length (flat_map f l) = nsum (map (fun x => length (f x)) l).
Proof. induction l as [|x r IH]; simpl; auto. rewrite app_length, IH. auto. Qed.

Lemma cor_list_length : forall stands chans, NoDup stands ->
  length (cor_frame_list stands chans) = (length stands * (length stands + 1) / 2 * length chans)%nat.
Proof.
  intros stands chans Hd. unfold cor_frame_list. rewrite length_flat_map_sum.
  assert (E : forall a q, length (flat_map (fun s1 => if s1 <? a then [] else map (fun c => [a; s1; c]) chans) q)
             = (ge_count a q * length chans)%nat).
  { intros a q. unfold ge_count. induction q as [|y q IH]; simpl; auto.
    rewrite app_length, IH. destruct (y <? a); simpl; auto. rewrite map_length. auto. }
  rewrite (map_ext _ (fun a => (ge_count a stands * length chans)%nat)) by (intro; apply E).
  assert (E2 : forall q, nsum (map (fun a => (ge_count a stands * length chans)%nat) q) =
             (nsum (map (fun a => ge_count a stands) q) * length chans)%nat).
  { induction q as [|y q IH]; simpl; auto. rewrite IH. lia. }
  rewrite E2. pose proof (nsum_ge stands Hd) as HN. rewrite <- HN.
  rewrite Nat.mul_comm with (n := 2%nat), Nat.div_mul by lia. auto.
Qed.

Lemma cor_list_shape : forall i stands chans, In i (cor_frame_list stands chans) <->
  exists a b c, i = [a; b; c] /\ In a stands /\ In b stands /\ a <= b /\ In c chans.
Proof.
  intros i stands chans. unfold cor_frame_list. rewrite in_flat_map. split.
  - intros (a & Ha & H). apply in_flat_map in H. destruct H as (b & Hb & H).
    destruct (Z.ltb_spec b a); [destruct H|]. apply in_map_iff in H. destruct H as (c & <- & Hc).
    exists a, b, c. auto 6.
  - intros (a & b & c & -> & Ha & Hb & Hab & Hc). exists a. split; auto.
    apply in_flat_map. exists b. split; auto. destruct (Z.ltb_spec b a); [lia|].
    apply in_map_iff. eauto.
Qed.

Lemma cor_list_NoDup : forall stands chans, NoDup stands -> NoDup chans -> NoDup (cor_frame_list stands chans).
Proof.
  intros stands chans Hs Hc. unfold cor_frame_list. apply NoDup_flat_map; auto.
  - intros a _. apply NoDup_flat_map; auto.
    + intros b _. destruct (b <? a); [constructor|].
      apply FinFun.Injective_map_NoDup; auto. intros x y E. congruence.
    + intros x y z _ _ H1 H2. destruct (x <? a); [destruct H1|]. destruct (y <? a); [destruct H2|].
      apply in_map_iff in H1, H2. destruct H1 as (? & <- & _), H2 as (? & E & _). congruence.
  - intros x y z _ _ H1 H2. apply in_flat_map in H1, H2.
    destruct H1 as (u & _ & H1), H2 as (v & _ & H2).
    destruct (u <? x); [destruct H1|]. destruct (v <? y); [destruct H2|].
    apply in_map_iff in H1, H2. destruct H1 as (? & <- & _), H2 as (? & E & _). congruence.
Qed.

Lemma cor_stands_NoDup : NoDup cor_stands.
Proof.
  unfold cor_stands. apply FinFun.Injective_map_NoDup; [|apply seq_NoDup].
  intros x y E. lia.
Qed.

Lemma singles_NoDup : forall l : list Z, NoDup l -> NoDup (map (fun t => [t]) l).
Proof. intros l H. apply FinFun.Injective_map_NoDup; auto. intros x y E. congruence. Qed.

(** *** Counts (C07) *)
Lemma drx_cfg_count : forall beams tunes pols nseg re c, NoDup beams -> NoDup tunes -> NoDup pols ->
  drx_cfg beams tunes pols nseg re = Ok c ->
  c_nframes c = length (c_possible c) /\ NoDup (c_possible c) /\
  c_nframes c = (length beams * length tunes * length pols)%nat /\
  (forall i, In i (c_possible c) <-> exists b u p, i = [b; u; p] /\ In b beams /\ In u tunes /\ In p pols).
Proof.
  intros beams tunes pols nseg re c Hb Hu Hp H. unfold drx_cfg in H.
  destruct (negb _); [congruence|]. destruct (negb _); [congruence|].
  destruct nseg; [congruence|]. inversion H; subst; simpl.
  pose proof (drx_list_NoDup _ _ _ Hb Hu Hp) as Hn.
  rewrite id_set_id by auto. rewrite drx_list_length. split; auto. split; auto. split; auto.
  intro i. split; [apply drx_list_shape|]. intros (b & u & p & -> & H'). apply drx_list_In. auto.
Qed.

Lemma cor_cfg_count : forall stands chans nseg re c, NoDup stands -> NoDup chans ->
  cor_cfg_of stands chans nseg re = Ok c ->
  c_nframes c = length (c_possible c) /\ NoDup (c_possible c) /\
  c_nframes c = (length stands * (length stands + 1) / 2 * length chans)%nat /\
  (forall i, In i (c_possible c) <-> exists a b ch, i = [a; b; ch] /\ In a stands /\ In b stands /\ a <= b /\ In ch chans).
Proof.
  intros stands chans nseg re c Hs Hc H. unfold cor_cfg_of in H.
  destruct (negb _); [congruence|]. inversion H; subst; clear H.
  cbn [c_nframes c_possible].
  rewrite id_set_id by (apply cor_list_NoDup; auto). rewrite cor_list_length by auto.
  split; auto. split; [apply cor_list_NoDup; auto|]. split; auto. intro i. apply cor_list_shape.
Qed.

Lemma vdif_cfg_count : forall threads nseg re c, NoDup threads -> vdif_cfg threads nseg re = Ok c ->
  c_nframes c = length (c_possible c) /\ NoDup (c_possible c) /\ c_nframes c = length threads /\
  (forall i, In i (c_possible c) <-> exists t, i = [t] /\ In t threads).
Proof.
  intros threads nseg re c Hn H. unfold vdif_cfg in H. destruct (negb _); [congruence|].
  inversion H; subst; simpl. pose proof (singles_NoDup _ Hn). rewrite id_set_id, map_length by auto.
  repeat split; auto.
  - intro Hi. apply in_map_iff in Hi. destruct Hi as (t & <- & Ht). eauto.
  - intros (t & -> & Ht). apply in_map_iff. eauto.
Qed.

Lemma tbx_cfg_count : forall chans nseg re c, NoDup chans -> tbx_cfg chans nseg re = Ok c ->
  c_nframes c = length (c_possible c) /\ NoDup (c_possible c) /\ c_nframes c = length chans /\
  (forall i, In i (c_possible c) <-> exists t, i = [t] /\ In t chans).
Proof.
  intros threads nseg re c Hn H. unfold tbx_cfg in H. destruct (negb _); [congruence|].
  inversion H; subst; simpl. pose proof (singles_NoDup _ Hn). rewrite id_set_id, map_length by auto.
  repeat split; auto.
  - intro Hi. apply in_map_iff in Hi. destruct Hi as (t & <- & Ht). eauto.
  - intros (t & -> & Ht). apply in_map_iff. eauto.
Qed.

(** *** Lawfulness *)
Lemma drx_lawful : forall bit6 beams tunes pols nseg re c, (bit6 = 0 \/ bit6 = 64) ->
  NoDup beams -> NoDup tunes -> NoDup pols -> (forall b, In b beams -> 0 <= b < 8) ->
  drx_cfg beams tunes pols nseg re = Ok c -> lawful (drx_ops bit6) c.
Proof.
  intros bit6 beams tunes pols nseg re c Hx Hb Hu Hp Hr H.
  destruct (drx_cfg_count _ _ _ _ _ _ Hb Hu Hp H) as (H1 & H2 & H3 & H4).
  unfold drx_cfg in H.
  destruct (forallb (fun t => (t =? 1) || (t =? 2)) tunes) eqn:Et; [|discriminate].
  destruct (forallb (fun p => (p =? 0) || (p =? 1)) pols) eqn:Ep; [|discriminate].
  simpl in H. rewrite forallb_forall in Et, Ep.
  destruct nseg as [|n]; [congruence|]. split; auto.
  - inversion H; subst; simpl. lia.
  - intros t i. simpl. destruct i as [|? [|? [|? [|]]]]; reflexivity.
  - intros t i. simpl. destruct i as [|? [|? [|? [|]]]]; reflexivity.
  - intros t i Hi. apply H4 in Hi. destruct Hi as (b & u & p & -> & Hbi & Hui & Hpi).
    simpl. apply drx_pack_id; auto.
    + specialize (Et u Hui). apply orb_true_iff in Et. rewrite !Z.eqb_eq in Et. lia.
    + specialize (Ep p Hpi). apply orb_true_iff in Ep. rewrite !Z.eqb_eq in Ep. lia.
Qed.

Lemma cor_lawful : forall stands chans nseg re c, NoDup stands -> NoDup chans -> (1 <= nseg)%nat ->
  cor_cfg_of stands chans nseg re = Ok c -> lawful cor_ops c.
Proof.
  intros stands chans nseg re c Hs Hc Hn H.
  destruct (cor_cfg_count _ _ _ _ _ Hs Hc H) as (H1 & H2 & H3 & H4).
  split; auto.
  - unfold cor_cfg_of in H. destruct (negb _); [congruence|]. inversion H; subst. exact Hn.
  - intros t i. simpl. destruct i as [|? [|? [|? [|]]]]; reflexivity.
  - intros t i. simpl. destruct i as [|? [|? [|? [|]]]]; reflexivity.
  - intros t i Hi. apply H4 in Hi. destruct Hi as (a & b & ch & -> & _). reflexivity.
Qed.

Lemma vdif_lawful : forall threads nseg re c, NoDup threads -> (1 <= nseg)%nat ->
  vdif_cfg threads nseg re = Ok c -> lawful vdif_ops c.
Proof.
  intros threads nseg re c Hd Hn H.
  destruct (vdif_cfg_count _ _ _ _ Hd H) as (H1 & H2 & H3 & H4).
  split; auto.
  - unfold vdif_cfg in H. destruct (negb _); [congruence|]. inversion H; subst. exact Hn.
  - intros t i Hi. apply H4 in Hi. destruct Hi as (a & -> & _). reflexivity.
Qed.

Lemma tbx_lawful : forall chans nseg re c, NoDup chans -> (1 <= nseg)%nat ->
  tbx_cfg chans nseg re = Ok c -> lawful tbx_ops c.
Proof.
  intros threads nseg re c Hd Hn H.
  destruct (tbx_cfg_count _ _ _ _ Hd H) as (H1 & H2 & H3 & H4).
  split; auto.
  - unfold tbx_cfg in H. destruct (negb _); [congruence|]. inversion H; subst. exact Hn.
  - intros t i Hi. apply H4 in Hi. destruct Hi as (a & -> & _). reflexivity.
Qed.

(** *** Orders *)
Lemma cmp_key_3 : forall a b c a' b' c', 0 <= b - 1 < 4096 -> 0 <= b' - 1 < 4096 -> 0 <= c < 4096 -> 0 <= c' < 4096 ->
  (cmp_key [a; b; c] < cmp_key [a'; b'; c'] <-> a < a' \/ a = a' /\ (b < b' \/ b = b' /\ c < c')).
Proof. intros. unfold cmp_key. lia. Qed.

Lemma vdif_fom_order : forall f g, 0 <= v_fis f < 1000000 -> 0 <= v_fis g < 1000000 ->
  (vdif_fom f < vdif_fom g <-> v_sec f < v_sec g \/ v_sec f = v_sec g /\ v_fis f < v_fis g).
Proof. intros f g Hf Hg. unfold vdif_fom. lia. Qed.
