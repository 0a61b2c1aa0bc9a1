(** Theorems about DRXFile.read and DRX8File.read. *)
From Coq Require Import List ZArith Bool Lia Permutation.
From Verif Require Import M_Ldp S_Ldp S_Buffer P_Buffer P_BufferModes P_Ldp.
Import ListNotations.
Open Scope Z_scope.

Lemma cfg_pols : forall beams tunes pols nseg re C, drx_cfg beams tunes pols nseg re = Ok C ->
  (forall t, In t tunes -> t = 1 \/ t = 2) /\ (forall p, In p pols -> p = 0 \/ p = 1) /\ c_nseg C = nseg.
Proof.
  intros beams tunes pols nseg re C H. unfold drx_cfg in H.
  destruct (forallb (fun t => (t =? 1) || (t =? 2)) tunes) eqn:Et; [|discriminate].
  destruct (forallb (fun p => (p =? 0) || (p =? 1)) pols) eqn:Ep; [|discriminate].
  rewrite forallb_forall in Et, Ep. cbn [negb] in H. destruct nseg; [discriminate|]. inversion H; subst. split; [|split; auto].
  - intros t Ht. specialize (Et t Ht). apply orb_true_iff in Et. rewrite !Z.eqb_eq in Et. auto.
  - intros t Ht. specialize (Ep t Ht). apply orb_true_iff in Ep. rewrite !Z.eqb_eq in Ep. auto.
Qed.
Lemma cfg_sid : forall b tunes pols nseg re C, NoDup tunes -> NoDup pols -> drx_cfg [b] tunes pols nseg re = Ok C ->
  (forall i, In i (c_possible C) -> exists a, sid i = Some a) /\
  (forall i j a, In i (c_possible C) -> In j (c_possible C) -> sid i = Some a -> sid j = Some a -> i = j).
Proof.
  intros b tunes pols nseg re C H1 H2 H. destruct (cfg_pols _ _ _ _ _ _ H) as (PT & PP & _).
  destruct (drx_cfg_count [b] tunes pols nseg re C) as (_ & _ & _ & SH); auto. { constructor; [auto|constructor]. }
  split.
  - intros i Hi. apply SH in Hi. destruct Hi as (b' & u & p & -> & _ & Hu & Hp).
    destruct (PT u Hu) as [->| ->], (PP p Hp) as [->| ->]; cbn; eauto.
  - intros i j a Hi Hj. apply SH in Hi, Hj. destruct Hi as (b1 & u1 & p1 & -> & [<-|[]] & Hu1 & Hp1), Hj as (b2 & u2 & p2 & -> & [<-|[]] & Hu2 & Hp2).
    destruct (PT u1 Hu1) as [->| ->], (PP p1 Hp1) as [->| ->], (PT u2 Hu2) as [->| ->], (PP p2 Hp2) as [->| ->]; intros A B; try reflexivity; rewrite <- B in A; vm_compute in A; discriminate A.
Qed.

(** ** C30 *)
(** C30: a recording whose sets first appear in time order, with single frames late or missing and
    with gaps the reader can fill, is returned by any sequence of read() calls set by set, once each, in
    time order, with zeros where a frame is missing; then comes EOFError. *)
Lemma C30_in_order_proof : forall bit6 b tunes pols nseg re C k skip autofill ignore toff file t0 grid L ns,
  bit6 = 0 \/ bit6 = 64 -> 0 <= b < 8 -> NoDup tunes -> NoDup pols -> drx_cfg [b] tunes pols nseg re = Ok C ->
  (2 <= nseg)%nat -> (1 <= k)%nat ->
  recording file t0 skip grid L -> in_window nseg file -> ids_once (c_possible C) file ->
  gaps_fillable (c_possible C) nseg k autofill grid file -> Forall (fun n => (1 <= n)%nat) ns ->
  in_order file t0 skip toff L (S (last grid 0%nat)) 0 ns (reads bit6 C k skip autofill ignore toff ns (open_ldp C file)).
Proof.
  intros bit6 b tunes pols nseg re C k skip autofill ignore toff file t0 grid L ns HB Hb H1 H2 HC HS HK R W I G HN.
  destruct (cfg_sid _ _ _ _ _ _ H1 H2 HC) as [S1 S2]. destruct (cfg_pols _ _ _ _ _ _ HC) as (_ & _ & CN). rewrite <- CN in *.
  apply (reads_in_order bit6 C k skip autofill ignore toff); auto.
  apply (drx_lawful bit6 [b] tunes pols (c_nseg C) re); auto.
  - constructor; [auto|constructor].
  - intros x [<-|[]]. auto.
Qed.
(** A file with a gap, a late frame, a missing frame, a bad frame and a cut-off end; buffer of 3 sets. *)
Definition ex_b (t u p : Z) (v : Z) : slot := SFrame (mkDrx (1 + 8 * u + 128 * p) (drx_floor + 10 * t) [Fin v] true).
Definition ex_file : list slot :=
  [ex_b 1 1 0 10; ex_b 1 1 1 11; SBad; ex_b 2 1 0 20; ex_b 4 1 0 40; ex_b 2 1 1 21; ex_b 4 1 1 41; ex_b 5 1 1 51;
   ex_b 6 1 0 60; ex_b 6 1 1 61; ex_b 7 1 1 71; ex_b 7 1 0 70; ex_b 8 1 0 80; ex_b 8 1 1 81; STail].
Lemma C30_in_order_example_proof : exists C, drx_cfg [1] [1] [0; 1] 3 false = Ok C /\
  recording ex_file (drx_floor + 10) 10 [0; 1; 3; 4; 5; 6; 7]%nat 1 /\ in_window 3 ex_file /\ ids_once (c_possible C) ex_file /\
  gaps_fillable (c_possible C) 3 2 50 [0; 1; 3; 4; 5; 6; 7]%nat ex_file /\
  reads 0 C 2 10 50 false 0 [3; 4; 4; 4]%nat (open_ldp C ex_file) =
   [Ok (3%nat, Some (drx_floor + 10), [[[Fin 10]; [Fin 20]; [Fin 0]]; [[Fin 11]; [Fin 21]; [Fin 0]]; []; []]);
    Ok (4%nat, Some (drx_floor + 40), [[[Fin 40]; [Fin 0]; [Fin 60]; [Fin 70]]; [[Fin 41]; [Fin 51]; [Fin 61]; [Fin 71]]; []; []]);
    Ok (1%nat, Some (drx_floor + 80), [[[Fin 80]]; [[Fin 81]]; []; []]); Raise EOFError].
Proof.
  eexists. split; [reflexivity|]. split; [|split; [|split; [|split]]].
  - split.
    + unfold drx_floor. lia.
    + split; auto. intros i Hi. cbn in Hi. do 6 (destruct i as [|i]; [cbn; lia|]). lia.
    + reflexivity.
    + intros f Hf. cbn in Hf. repeat (destruct Hf as [<-|Hf]; [split; [reflexivity|intros x [<-|[]]; eauto]|]). contradiction.
    + intros l r H. unfold ex_file in H.
      do 14 (destruct l as [|? l]; [discriminate|injection H as _ H]). destruct l as [|? l]; [injection H as H; auto|].
      injection H as _ H. destruct l; discriminate.
  - intros p f q H. cbn in H.
    do 13 (destruct p as [|? p]; [injection H as <- <-; vm_compute; lia|injection H as <- H]). destruct p; discriminate.
  - split.
    + intros f Hf. cbn in Hf. repeat (destruct Hf as [<-|Hf]; [vm_compute; tauto|]). contradiction.
    + vm_compute. repeat (constructor; [cbn; intro X; repeat (destruct X as [X|X]; [discriminate X|]); exact X|]). constructor.
  - intros i Hi Hg. cbn in Hi. destruct i as [|[|i]]; [cbn in Hg; congruence| |].
    + split; [vm_compute; auto|]. split; [cbn; lia|]. split; [exists 1; vm_compute; auto|].
      intros l m r H Hm. unfold ex_file in H. destruct m as [|x [|y [|]]]; try discriminate Hm.
      do 14 (destruct l as [|? l]; [injection H as <- <- _; eexists; first [left; reflexivity|right; left; reflexivity]|cbn [app] in H; injection H; clear H; intros H _]).
      destruct l as [|? l]; [discriminate H|]. destruct l; discriminate H.
    + do 4 (destruct i as [|i]; [cbn in Hg; congruence|]). lia.
  - vm_compute. reflexivity.
Qed.

(** C30: an unbroken file of sets, the frames of a set together in any order, needs no other
    hypothesis: any number of sets, any buffer of at least two sets, any durations. *)
Definition set_file (sets : list (list drx_frame)) : list slot := map SFrame (concat sets).
Definition good_sets (possible : list (list Z)) (t0 skip : Z) (L : nat) (sets : list (list drx_frame)) : Prop :=
  forall j, (j < length sets)%nat ->
    nth j sets [] <> [] /\ NoDup (map (fun f => drx_id_tuple (dx_id f)) (nth j sets [])) /\
    forall f, In f (nth j sets []) -> dx_tt f = set_time t0 skip j /\ In (drx_id_tuple (dx_id f)) possible /\
      length (dx_data f) = L /\ forall x, In x (dx_data f) -> exists z, x = Fin z.

Lemma recorded_SFrame : forall l, recorded (map SFrame l) = l.
Proof. induction l; cbn; f_equal; auto. Qed.
Lemma concat_In_nth : forall A (ls : list (list A)) x, In x (concat ls) -> exists j, (j < length ls)%nat /\ In x (nth j ls []).
Proof.
  induction ls as [|l ls IH]; cbn; intros x H; [contradiction|]. apply in_app_iff in H. destruct H as [H|H].
  - exists 0%nat. split; [lia|auto].
  - destruct (IH x H) as (j & H1 & H2). exists (S j). split; [lia|auto].
Qed.
Lemma first_seen_same : forall t l, (forall x, In x l -> x = t) -> l <> [] -> first_seen l = [t].
Proof.
  intros t. induction l as [|x l IH]; intros H NE; [congruence|]. cbn. rewrite (H x) by (left; auto). f_equal.
  destruct l as [|y l]; auto. rewrite IH; [|intros; apply H; right; auto|discriminate]. cbn. rewrite Z.eqb_refl. auto.
Qed.
Section Sets.
Context (possible : list (list Z)) (skip : Z) (L : nat) (SP : 0 < skip).
Lemma good_sets_tl : forall t0 s sets, good_sets possible t0 skip L (s :: sets) -> good_sets possible (t0 + skip) skip L sets.
Proof.
  intros t0 s sets H j Hj. destruct (H (S j)) as (A & B & D); [cbn; lia|]. split; auto. split; auto.
  intros f Hf. destruct (D f Hf) as (D1 & D2). split; auto. rewrite D1. unfold set_time. lia.
Qed.
Lemma good_sets_ge : forall t0 sets f, good_sets possible t0 skip L sets -> In f (concat sets) -> t0 <= dx_tt f.
Proof.
  intros t0 sets f H Hf. apply concat_In_nth in Hf. destruct Hf as (j & Hj & Hf). destruct (H j Hj) as (_ & _ & D). destruct (D f Hf) as [D1 _].
  rewrite D1. unfold set_time. nia.
Qed.
Lemma good_sets_order : forall sets t0, good_sets possible t0 skip L sets -> first_seen (map dx_tt (concat sets)) = map (set_time t0 skip) (seq 0 (length sets)).
Proof.
  induction sets as [|s sets IH]; intros t0 H; auto. cbn [concat length seq map]. rewrite map_app, first_seen_app.
  destruct (H 0%nat) as (A & B & D); [cbn; lia|]. cbn [nth] in A, B, D.
  rewrite (first_seen_same t0).
  2: { intros x Hx. apply in_map_iff in Hx. destruct Hx as (f & <- & Hf). rewrite (proj1 (D f Hf)). unfold set_time. lia. }
  2: { destruct s; [congruence|discriminate]. }
  cbn [app]. f_equal; [unfold set_time; lia|]. rewrite filter_all.
  - rewrite (IH (t0 + skip)) by (eapply good_sets_tl; eauto). rewrite <- (seq_shift (length sets) 0), map_map. apply map_ext. intro j. unfold set_time. lia.
  - intros x Hx. apply (proj1 (first_seen_In _ _)) in Hx. apply in_map_iff in Hx. destruct Hx as (f & <- & Hf). apply negb_true_iff, inb_f. intro Y.
    apply in_map_iff in Y. destruct Y as (f' & Y1 & Y2). pose proof (good_sets_ge _ _ f (good_sets_tl _ _ _ H) Hf) as GE. destruct (D f' Y2) as [D1 _]. unfold set_time in D1. lia.
Qed.
Lemma filter_le1 : forall (P : Z -> bool) l, (length (filter P l) <= length l)%nat.
Proof. intros. induction l as [|x l IH]; cbn; auto. destruct (P x); cbn; lia. Qed.
Lemma good_sets_window : forall sets t0, good_sets possible t0 skip L sets -> forall p f q, concat sets = p ++ f :: q ->
  (length (filter (fun t => (dx_tt f <=? t)%Z) (first_seen (map dx_tt p))) <= 1)%nat.
Proof.
  induction sets as [|s sets IH]; intros t0 H p f q E; [destruct p; discriminate|]. cbn [concat] in E.
  destruct (H 0%nat) as (A & B & D); [cbn; lia|]. cbn [nth] in A, B, D.
  assert (SAME : forall l, (forall f', In f' l -> In f' s) -> (length (first_seen (map dx_tt l)) <= 1)%nat).
  { intros l Hl. destruct l as [|x l]; [cbn; lia|]. rewrite (first_seen_same t0); [auto| |discriminate].
    intros y Hy. apply in_map_iff in Hy. destruct Hy as (f' & <- & Hf'). rewrite (proj1 (D f' (Hl _ Hf'))). unfold set_time. lia. }
  destruct (Nat.le_gt_cases (length s) (length p)) as [Le|Lt].
  - (* p contains s *)
    assert (P : exists p', p = s ++ p' /\ concat sets = p' ++ f :: q).
    { clear - E Le. revert p E Le. induction s as [|x s IH]; intros p E Le; [exists p; auto|]. destruct p as [|y p]; [cbn in Le; lia|].
      cbn in E. injection E as -> E. destruct (IH p E) as (p' & -> & X); [cbn in Le; lia|]. exists p'. auto. }
    destruct P as (p' & -> & E'). rewrite map_app, first_seen_app, filter_app, app_length.
    rewrite (filter_none _ _ (first_seen (map dx_tt s))).
    + cbn [length plus]. specialize (IH _ (good_sets_tl _ _ _ H) p' f q E').
      etransitivity; [|exact IH].
      clear. generalize (first_seen (map dx_tt p')). induction l as [|x l IHl]; cbn; auto.
      destruct (negb (inb x (map dx_tt s))); cbn; destruct (dx_tt f <=? x); cbn; lia.
    + intros x Hx. apply (proj1 (first_seen_In _ _)) in Hx. apply in_map_iff in Hx. destruct Hx as (f' & <- & Hf'). apply Z.leb_gt.
      rewrite (proj1 (D f' Hf')). assert (t0 + skip <= dx_tt f). { eapply good_sets_ge; [eapply good_sets_tl; eauto|]. rewrite E'. apply in_app_iff. right. left. auto. }
      unfold set_time. lia.
  - etransitivity; [apply filter_le1|]. apply SAME. intros f' Hf'.
    clear - E Lt Hf'. revert p E Lt Hf'. induction s as [|x s IH]; intros p E Lt Hf'; [cbn in Lt; lia|].
    destruct p as [|y p]; [contradiction|]. cbn in E. injection E as -> E. destruct Hf' as [->|Hf']; [left; auto|]. right. apply (IH p); auto. cbn in Lt. lia.
Qed.
Lemma good_sets_once : forall sets t0, good_sets possible t0 skip L sets -> NoDup (map (fun f => (dx_tt f, drx_id_tuple (dx_id f))) (concat sets)).
Proof.
  induction sets as [|s sets IH]; intros t0 H; [constructor|]. cbn [concat]. rewrite map_app.
  destruct (H 0%nat) as (A & B & D); [cbn; lia|]. cbn [nth] in A, B, D. apply NoDup_app_intro.
  - clear - B. induction s as [|f s IH]; cbn in *; [constructor|]. inversion B as [|? ? N1 N2]; subst. constructor; auto. intro X. apply N1.
    apply in_map_iff in X. destruct X as (f' & X1 & X2). apply in_map_iff. exists f'. split; auto. congruence.
  - eapply IH. eapply good_sets_tl; eauto.
  - intros x H1 H2. apply in_map_iff in H1, H2. destruct H1 as (f1 & <- & F1), H2 as (f2 & X & F2).
    pose proof (good_sets_ge _ _ f2 (good_sets_tl _ _ _ H) F2) as GE. destruct (D f1 F1) as [D1 _]. apply pair_equal_spec in X. unfold set_time in D1. lia.
Qed.
End Sets.
Lemma C30_unbroken_proof : forall bit6 b tunes pols nseg re C k skip autofill ignore toff t0 L sets ns,
  bit6 = 0 \/ bit6 = 64 -> 0 <= b < 8 -> NoDup tunes -> NoDup pols -> drx_cfg [b] tunes pols nseg re = Ok C ->
  (2 <= nseg)%nat -> (1 <= k)%nat -> drx_floor < t0 -> 0 < skip -> sets <> [] -> good_sets (c_possible C) t0 skip L sets ->
  Forall (fun n => (1 <= n)%nat) ns ->
  in_order (set_file sets) t0 skip toff L (length sets) 0 ns (reads bit6 C k skip autofill ignore toff ns (open_ldp C (set_file sets))).
Proof.
  intros bit6 b tunes pols nseg re C k skip autofill ignore toff t0 L sets ns HB Hb H1 H2 HC HS HK HT HP NE G HN.
  assert (LS : S (last (seq 0 (length sets)) 0%nat) = length sets).
  { destruct sets as [|s sets]; [congruence|]. cbn [length]. rewrite seq_S, last_last. lia. }
  rewrite <- LS at 1. apply (C30_in_order_proof bit6 b tunes pols nseg re); auto.
  - split.
    + auto.
    + destruct sets as [|s sets]; [congruence|]. split; auto. intros i Hi. rewrite seq_length in Hi. rewrite !seq_nth by (cbn in *; lia). lia.
    + unfold set_file. rewrite recorded_SFrame. apply (good_sets_order (c_possible C) skip L); auto.
    + unfold set_file. rewrite recorded_SFrame. intros f Hf. apply concat_In_nth in Hf. destruct Hf as (j & Hj & Hf). destruct (G j Hj) as (_ & _ & D). apply (D f Hf).
    + intros l r X. exfalso. assert (I : In STail (set_file sets)) by (rewrite X; apply in_app_iff; right; left; auto).
      unfold set_file in I. apply in_map_iff in I. destruct I as (? & ? & _). discriminate.
  - intros p f q E. unfold set_file in E. rewrite recorded_SFrame in E. pose proof (good_sets_window (c_possible C) skip L HP sets t0 G p f q E). lia.
  - split; unfold set_file; rewrite recorded_SFrame.
    + intros f Hf. apply concat_In_nth in Hf. destruct Hf as (j & Hj & Hf). destruct (G j Hj) as (_ & _ & D). apply (D f Hf).
    + apply (good_sets_once (c_possible C) skip L HP sets t0 G).
  - intros i Hi Hg. rewrite seq_length in Hi. rewrite !seq_nth in Hg by lia. lia.
Qed.
Definition ex_sets : list (list drx_frame) :=
  map (fun j => map (fun '(u, p) => mkDrx (3 + 8 * u + 128 * p) (drx_floor + 1 + 640 * j) [Fin (10 * j + u); Fin p] true)
                    (if Z.even j then [(1, 0); (2, 1); (1, 1); (2, 0)] else [(2, 0); (1, 0); (1, 1)])) [0; 1; 2].
Lemma C30_unbroken_example_proof : exists C, drx_cfg [3] [1; 2] [0; 1] 20 false = Ok C /\ good_sets (c_possible C) (drx_floor + 1) 640 2 ex_sets /\
  reads 0 C 4 640 50 false 0 [2; 2]%nat (open_ldp C (set_file ex_sets)) =
   [Ok (2%nat, Some (drx_floor + 1), [[[Fin 1; Fin 0]; [Fin 11; Fin 0]]; [[Fin 1; Fin 1]; [Fin 11; Fin 1]]; [[Fin 2; Fin 0]; [Fin 12; Fin 0]]; [[Fin 2; Fin 1]; [Fin 0; Fin 0]]]);
    Ok (1%nat, Some (drx_floor + 1281), [[[Fin 21; Fin 0]]; [[Fin 21; Fin 1]]; [[Fin 22; Fin 0]]; [[Fin 22; Fin 1]]])].
Proof.
  eexists. split; [reflexivity|]. split; [|vm_compute; reflexivity].
  intros j Hj. cbn in Hj. do 3 (destruct j as [|j];
    [split; [discriminate|]; split;
      [vm_compute; repeat (constructor; [cbn; intro X; repeat (destruct X as [X|X]; [discriminate X|]); exact X|]); constructor|];
     intros f Hf; cbn in Hf; repeat (destruct Hf as [<-|Hf]; [split; [reflexivity|]; split; [vm_compute; tauto|]; split; [reflexivity|intros x [<-|[<-|[]]]; eauto]|]); contradiction|]).
  lia.
Qed.

(** ** Findings *)
Definition fnd (us : list (Z * Z)) (grid : list Z) : list slot :=
  flat_map (fun j => map (fun '(u, p) => SFrame (mkDrx (1 + 8 * u + 128 * p) (drx_floor + 1 + 10 * j) [Fin 1] true)) us) grid.
Definition z20 : list Z := map Z.of_nat (seq 0 20).
(** C30, finding: a set missing where fewer than 20 sets follow is not filled; the whole read fails,
    though a gap of up to 49 sets anywhere else is filled. *)
Lemma C30_gap_near_end_refuted_proof :
  match drx_cfg [1] [1; 2] [0; 1] 20 false with
  | Ok C =>
      reads 0 C 4 10 50 false 0 [60]%nat (open_ldp C (fnd [(1, 0); (1, 1); (2, 0); (2, 1)] (z20 ++ map (Z.add 21) (removelast z20)))) = [Raise RuntimeError] /\
      match reads 0 C 4 10 50 false 0 [70]%nat (open_ldp C (fnd [(1, 0); (1, 1); (2, 0); (2, 1)] (z20 ++ map (Z.add 21) (z20 ++ map (Z.add 20) z20)))) with
      | [Ok (n, _, _)] => n = 61%nat | _ => False end
  | _ => False end.
Proof. vm_compute. auto. Qed.
(** C30, finding: gaps are only noticed through tuning 1, polarisation X: a recording of tuning 2 alone fails at any gap. *)
Lemma C30_tuning2_refuted_proof :
  match drx_cfg [1] [2] [0; 1] 20 false with
  | Ok C => reads 0 C 2 10 50 false 0 [70]%nat (open_ldp C (fnd [(2, 0); (2, 1)] (z20 ++ map (Z.add 21) (z20 ++ map (Z.add 20) z20)))) = [Raise RuntimeError]
  | _ => False end.
Proof. vm_compute. auto. Qed.
(** C30, finding: at the end of the file the buffered sets are taken in order of arrival, not of time. *)
Lemma C30_swapped_tail_refuted_proof :
  match drx_cfg [1] [1; 2] [0; 1] 20 false with
  | Ok C => reads 0 C 4 10 50 false 0 [30]%nat (open_ldp C (fnd [(1, 0); (1, 1); (2, 0); (2, 1)] (z20 ++ [21; 20]))) = [Raise RuntimeError] /\
      match reads 0 C 4 10 50 false 0 [70]%nat (open_ldp C (fnd [(1, 0); (1, 1); (2, 0); (2, 1)] ([0; 2; 1] ++ map (Z.add 3) z20 ++ map (Z.add 23) z20))) with
      | [Ok (n, _, _)] => n = 43%nat | _ => False end
  | _ => False end.
Proof. vm_compute. auto. Qed.
(** C30, finding: when the file ends in the middle of a set while a gap is due, the read ends in IndexError. *)
Lemma C30_gap_at_eof_refuted_proof :
  match drx_cfg [1] [1; 2] [0; 1] 20 false with
  | Ok C => reads 0 C 4 10 50 false 0 [30]%nat (open_ldp C (fnd [(1, 0); (1, 1); (2, 0); (2, 1)] (0 :: map (Z.add 2) (removelast z20)) ++ fnd [(1, 0); (1, 1); (2, 0)] [21])) = [Raise IndexError]
  | _ => False end.
Proof. vm_compute. auto. Qed.
(** C30, finding: a file with two beams cannot be read: both beams are written to the same rows. *)
Lemma C30_two_beams_refuted_proof :
  match drx_cfg [1; 2] [1] [0; 1] 20 false with
  | Ok C => reads 0 C 4 10 50 false 0 [1]%nat (open_ldp C (fnd [(1, 0); (1, 1)] z20 ++
      flat_map (fun j => map (fun p => SFrame (mkDrx (2 + 8 + 128 * p) (drx_floor + 1 + 10 * j) [Fin 1] true)) [0; 1]) z20)) = [Raise RuntimeError]
  | _ => False end.
Proof. vm_compute. auto. Qed.
