(** The w planes of the gridder. *)
From Coq Require Import List ZArith QArith Qcanon Bool Lia Lqa.
From Verif Require Import LibList M_Base P_Base M_Corr S_Corr P_Corr M_Robust P_Robust M_Math P_Math M_Grid S_Grid.
Import ListNotations.
Open Scope Z_scope.

Fixpoint chain (lo : Z) (l : list (Z * Z)) (hi : Z) : Prop := match l with [] => lo = hi | (a, b) :: r => a = lo /\ a < b /\ chain b r hi end.
Lemma chain_snoc : forall l lo mid hi, chain lo l mid -> mid < hi -> chain lo (l ++ [(mid, hi)]) hi.
Proof. induction l as [|[a b] r IH]; intros lo mid hi H L; cbn [chain app] in *; [subst; auto|]. destruct H as [? [? H]]. repeat split; auto. Qed.
Lemma chain_le : forall l lo hi, chain lo l hi -> lo <= hi.
Proof. induction l as [|[a b] r IH]; intros lo hi H; cbn [chain] in H; [lia|]. destruct H as [? [? H]]. apply IH in H. lia. Qed.
Lemma chain_in : forall l lo hi a b, chain lo l hi -> In (a, b) l -> lo <= a /\ a < b /\ b <= hi.
Proof.
  induction l as [|[c d] r IH]; intros lo hi a b H I; [contradiction|]. cbn [chain] in H. destruct H as [? [? H]]. pose proof (chain_le _ _ _ H). destruct I as [I|I].
  - injection I as -> ->. lia.
  - destruct (IH _ _ _ _ H I) as [? [? ?]]. lia.
Qed.
Lemma piece_app {A} (l : list A) lo mid : 0 <= lo <= mid -> mid <= zlen l -> zdrop lo l = piece l (lo, mid) ++ zdrop mid l.
Proof.
  intros H L. unfold piece. cbn [fst snd]. rewrite <- (ztake_zdrop (mid - lo) (zdrop lo l)) at 1. f_equal. rewrite zdrop_zdrop by lia. f_equal. lia.
Qed.
Lemma chain_concat {A} (l : list A) : forall p lo, 0 <= lo -> chain lo p (zlen l) -> concat (map (piece l) p) = zdrop lo l.
Proof.
  induction p as [|[a b] r IH]; intros lo L H; cbn [chain] in H; cbn [map concat].
  - subst lo. symmetry. apply zdrop_all. lia.
  - destruct H as [-> [Hb H]]. pose proof (chain_le _ _ _ H). rewrite (IH b) by (auto; lia). symmetry. apply piece_app; lia.
Qed.
Lemma chain_last : forall l lo hi d, chain lo l hi -> l <> [] -> snd (znth d (zlen l - 1) l) = hi.
Proof.
  induction l as [|[a b] r IH]; intros lo hi d H N; [congruence|]. cbn [chain] in H. destruct H as [_ [_ H]]. destruct r as [|q r].
  - cbn in H. subst. reflexivity.
  - rewrite zlen_cons. replace (1 + zlen (q :: r) - 1) with (zlen (q :: r)) by lia. pose proof (zlen_nonneg r).
    change ((a, b) :: q :: r) with ([(a, b)] ++ (q :: r)). rewrite znth_app_r by (change (zlen [(a, b)]) with 1; rewrite zlen_cons; lia).
    change (zlen [(a, b)]) with 1. apply (IH b); [exact H|discriminate].
Qed.

Section Planes.
Context (ss : Qc -> Qc) (wRes : Qc) (w : list Qc).
Definition key (i : Z) : Qc := ss (znth 0%Qc i w).
Definition run_ok (a b : Z) : Prop := forall i, a <= i < b -> (key i < key a + wRes)%Qc.
Definition inv (k : Z) (s : option (list (Z * Z) * Z * Qc)) : Prop :=
  match s with
  | None => exists i, 0 <= i < k /\ (key 0 + qz 1024 * wRes <= key i)%Qc
  | Some (closed, first, psw) =>
      0 <= first < k /\ psw = key first /\ chain 0 closed first /\ zlen closed <= 1023 /\ (key 0 + qz (zlen closed) * wRes <= psw)%Qc /\
      run_ok first k /\ (forall a b, In (a, b) closed -> run_ok a b /\ (key a + wRes <= key b)%Qc) /\ (closed = [] -> first = 0)
  end.
Lemma qz_S n : qz (n + 1) = (qz n + 1)%Qc.
Proof. apply Qc_is_canon. unfold qz, Qcplus. cbn [this Q2Qc]. rewrite !Qred_correct, inject_Z_plus. reflexivity. Qed.
Lemma key_grow a n x : (a + qz n * wRes <= x)%Qc -> forall y, (x + wRes <= y)%Qc -> (a + qz (n + 1) * wRes <= y)%Qc.
Proof.
  intros H y Hy. rewrite qz_S. assert (E : (a + (qz n + 1) * wRes = a + qz n * wRes + wRes)%Qc) by ring. rewrite E.
  apply Qcle_trans with (y := (x + wRes)%Qc); [|exact Hy]. apply Qcplus_le_compat; [exact H|apply Qcle_refl].
Qed.
Lemma inv_step : (0 < wRes)%Qc -> forall k s, 1 <= k < zlen w -> inv k s -> inv (k + 1) (plane_step ss wRes w k s).
Proof.
  intros Hw k s Hk I. destruct s as [[[closed first] psw]|]; cbn [plane_step].
  - cbn [inv] in I. destruct I as (Hf & -> & Hc & Hl & Hg & Hr & Hcl & Hn). change (ss (znth 0%Qc k w)) with (key k).
    destruct (Qle_bool (key first + wRes)%Qc (key k)) eqn:T.
    + apply qle_bool_iff in T. unfold MAX_W_PLANES. destruct (zlen closed + 1 <? 1024) eqn:M.
      * apply Z.ltb_lt in M. cbn [inv]. rewrite zlen_app. change (zlen [(first, k)]) with 1. split; [lia|]. split; [reflexivity|].
        split; [apply chain_snoc; [exact Hc|lia]|]. split; [lia|]. split; [apply (key_grow (key 0) (zlen closed) (key first)); auto|].
        split.
        { intros i Hi. assert (i = k) by lia. subst i. qcl. }
        split; [|intro E; destruct closed; discriminate].
        intros a b Hin. apply in_app_iff in Hin. destruct Hin as [Hin|[Hin|[]]]; [apply Hcl, Hin|]. injection Hin as <- <-. split; auto.
      * apply Z.ltb_ge in M. cbn [inv]. exists k. split; [lia|]. change 1024 with (1023 + 1). apply (key_grow (key 0) 1023 (key first)); auto.
        replace 1023 with (zlen closed) by lia. exact Hg.
    + apply qle_bool_false in T. cbn [inv]. split; [lia|]. split; [reflexivity|]. split; [exact Hc|]. split; [exact Hl|]. split; [exact Hg|]. split; [|split; [exact Hcl|exact Hn]].
      intros i Hi. destruct (Z.eq_dec i k) as [->|N]; [exact T|]. apply Hr. lia.
  - cbn [inv] in *. destruct I as [i [Hi H]]. exists i. split; [lia|exact H].
Qed.
Lemma inv_end : (0 < wRes)%Qc -> w <> [] -> inv (zlen w) (loop 1 (zlen w) (plane_step ss wRes w) (Some ([], 0, key 0))).
Proof.
  intros Hw Hn. destruct w as [|w0 r] eqn:E; [congruence|]. rewrite <- E in *. assert (L : 1 <= zlen w) by (rewrite E, zlen_cons; pose proof (zlen_nonneg r); lia).
  apply (loop_ind _ inv); [lia| |intros k s Hk I; apply inv_step; auto; lia].
  cbn [inv]. split; [lia|]. split; [reflexivity|]. split; [reflexivity|]. split; [rewrite zlen_nil; lia|]. split; [change (zlen (@nil (Z*Z))) with 0; change (qz 0) with 0%Qc; qcl|].
  split; [|split; [intros a b []|reflexivity]]. intros i Hi. assert (i = 0) by lia. subst i. qcl.
Qed.
Lemma planes_unfold before : w <> [] -> compute_planes ss before wRes w =
  match loop 1 (zlen w) (plane_step ss wRes w) (Some ([], 0, key 0)) with
  | None => None
  | Some (closed, first, _) =>
      let last := match closed with [] => before | _ => snd (znth (0, 0) (zlen closed - 1) closed) end in
      Some (if last <? zlen w then closed ++ [(first, zlen w)] else closed)
  end.
Proof. intro H. unfold compute_planes, key. destruct w as [|w0 r]; [congruence|]. reflexivity. Qed.

(** All planes, unless the read in front of the array hides the only one. *)
Lemma planes_ok before p : (0 < wRes)%Qc -> compute_planes ss before wRes w = Some p -> before < zlen w \/ (exists i, 0 <= i < zlen w /\ (key 0 + wRes <= key i)%Qc) ->
  chain 0 p (zlen w) /\ (forall a b, In (a, b) p -> run_ok a b) /\ zlen p <= 1024.
Proof.
  intros Hw Hp Hb. assert (Hn : w <> []) by (intro E; rewrite E in Hp; discriminate). pose proof (inv_end Hw Hn) as I. rewrite planes_unfold in Hp by exact Hn.
  destruct (loop 1 (zlen w) (plane_step ss wRes w) (Some ([], 0, key 0))) as [[[closed first] psw]|]; [|discriminate].
  cbn [inv] in I. destruct I as (Hf & -> & Hc & Hl & Hg & Hr & Hcl & Hz). cbn zeta in Hp.
  assert (Last : match closed with [] => before | _ => snd (znth (0, 0) (zlen closed - 1) closed) end < zlen w).
  { destruct closed as [|q r] eqn:E.
    - destruct Hb as [Hb|[i [Hi Hk]]]; [exact Hb|]. exfalso. specialize (Hz eq_refl). subst first. specialize (Hr i ltac:(lia)). apply (Qclt_not_le _ _ Hr Hk).
    - rewrite (chain_last _ _ _ (0, 0) Hc) by discriminate. lia. }
  apply Z.ltb_lt in Last. rewrite Last in Hp. injection Hp as <-. split; [apply chain_snoc; [exact Hc|lia]|]. split.
  - intros a b Hin. apply in_app_iff in Hin. destruct Hin as [Hin|[Hin|[]]]; [apply Hcl, Hin|]. injection Hin as <- <-. exact Hr.
  - rewrite zlen_app. change (zlen [(first, zlen w)]) with 1. lia.
Qed.
Lemma planes_some before : (0 < wRes)%Qc -> w <> [] -> (forall i, 0 <= i < zlen w -> (key i < key 0 + qz 1024 * wRes)%Qc) -> exists p, compute_planes ss before wRes w = Some p.
Proof.
  intros Hw Hn Hs. pose proof (inv_end Hw Hn) as I. rewrite planes_unfold by exact Hn.
  destruct (loop 1 (zlen w) (plane_step ss wRes w) (Some ([], 0, key 0))) as [[[closed first] psw]|]; [eexists; reflexivity|].
  cbn [inv] in I. destruct I as [i [Hi H]]. exfalso. apply (Qclt_not_le _ _ (Hs i Hi) H).
Qed.
(** A lone plane is lost when the word read is not below the number of visibilities. *)
Lemma planes_lost before : (0 < wRes)%Qc -> w <> [] -> (forall i, 0 <= i < zlen w -> (key i < key 0 + wRes)%Qc) -> zlen w <= before -> compute_planes ss before wRes w = Some [].
Proof.
  intros Hw Hn Hs Hb. pose proof (inv_end Hw Hn) as I. rewrite planes_unfold by exact Hn.
  destruct (loop 1 (zlen w) (plane_step ss wRes w) (Some ([], 0, key 0))) as [[[closed first] psw]|]; cbn [inv] in I.
  - destruct I as (Hf & _ & Hc & Hl & Hg & Hr & Hcl & Hz). destruct closed as [|[a b] r].
    + cbn zeta iota. destruct (before <? zlen w) eqn:T; [apply Z.ltb_lt in T; lia|reflexivity].
    + exfalso. cbn [chain] in Hc. destruct Hc as [-> [Hab Hc]]. destruct (Hcl 0 b (or_introl eq_refl)) as [_ H]. apply chain_le in Hc. apply (Qclt_not_le _ _ (Hs b ltac:(lia)) H).
  - exfalso. destruct I as [i [Hi H]].
    apply (Qclt_not_le _ _ (Hs i Hi)). apply Qcle_trans with (y := (key 0 + qz 1024 * wRes)%Qc); [|exact H]. change (qz 1024) with (Q2Qc 1024).
    clear - Hw. generalize (key 0). intro y. qcl.
Qed.
End Planes.

(** Keys one step apart each open a plane, so 1025 of them do not fit. *)
Lemma key_count n i : 0 <= i < n -> znth 0%Qc i (map qz (range 0 n)) = qz i.
Proof.
  intro H. rewrite (znth_map Z Qc qz 0%Z) by (rewrite range_len; lia). f_equal. unfold range, znth. destruct (i <? 0) eqn:T; [apply Z.ltb_lt in T; lia|].
  rewrite nth_indep with (d' := 0 + Z.of_nat 0) by (rewrite map_length, seq_length; lia). rewrite (map_nth (fun k => 0 + Z.of_nat k)), seq_nth by lia. lia.
Qed.
Lemma planes_overrun n before : 1025 <= n -> compute_planes (fun x => x) before 1%Qc (map qz (range 0 n)) = None.
Proof.
  intro Hn. set (w := map qz (range 0 n)). assert (L : zlen w = n) by (unfold w; rewrite zlen_map, range_len; lia).
  assert (N : w <> []) by (intro E; rewrite E in L; cbn in L; lia).
  rewrite planes_unfold by exact N. rewrite L. cbn zeta.
  assert (I : (fun k (s : option (list (Z * Z) * Z * Qc)) => match s with Some (c, _, psw) => zlen c = k - 1 /\ psw = qz (k - 1) /\ k <= 1024 | None => 1024 < k end) n
              (loop 1 n (plane_step (fun x => x) 1%Qc w) (Some ([], 0, key (fun x => x) w 0)))).
  { apply (loop_ind _ (fun k (s : option (list (Z * Z) * Z * Qc)) => match s with Some (c, _, psw) => zlen c = k - 1 /\ psw = qz (k - 1) /\ k <= 1024 | None => 1024 < k end)); [lia| |].
    - split; [reflexivity|]. split; [|lia]. unfold key, w. rewrite key_count by lia. reflexivity.
    - intros k s Hk. destruct s as [[[c f] psw]|]; cbn [plane_step]; [|lia]. intros [Hc [-> Hle]].
      unfold w at 1 2. rewrite key_count by lia. rewrite <- qz_S. replace (k - 1 + 1) with k by lia.
      assert (T : Qle_bool (qz k) (qz k) = true) by (apply qle_bool_iff, Qcle_refl). rewrite T. unfold MAX_W_PLANES. destruct (zlen c + 1 <? 1024) eqn:M.
      + apply Z.ltb_lt in M. rewrite zlen_app. change (zlen [(f, k)]) with 1. split; [lia|]. split; [f_equal; lia|lia].
      + apply Z.ltb_ge in M. lia. }
  cbn beta in I. destruct (loop 1 n (plane_step (fun x => x) 1%Qc w) (Some ([], 0, key (fun x => x) w 0))) as [[[c f] psw]|]; [|reflexivity].
  destruct I as [_ [_ I]]. lia.
Qed.
