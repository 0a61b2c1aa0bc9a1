(** Lemmas for the examples of the robust statistics. *)
From Coq Require Import List ZArith QArith Qcanon Qcabs Bool Arith Lia Permutation Sorted.
From Verif Require Import M_Robust S_Robust P_Robust P_RobustA P_RobustB P_RobustC P_RobustD P_RobustE P_RobustF.
Import ListNotations.
Open Scope Qc_scope.

Lemma inside_none a b l : (forall x, In x l -> b < x) -> inside a b l = 0%nat.
Proof.
  induction l as [|x l IH]; intro H; [reflexivity|]. cbn [inside]. rewrite IH by (intros y Hy; apply H; right; exact Hy).
  destruct (Qclt_le_dec x a); [reflexivity|]. destruct (Qclt_le_dec b x) as [|B]; [reflexivity|]. exfalso. exact (Qclt_not_le _ _ (H x (or_introl eq_refl)) B).
Qed.
Lemma gaps_inside l : StronglySorted (fun x y => Q2Qc (2 # 100000000000000000000) < y - x) l -> forall a b, b - a <= Q2Qc (2 # 100000000000000000000) -> (inside a b l <= 1)%nat.
Proof.
  induction 1 as [|x l S IH F]; intros a b H; [cbn; lia|]. cbn [inside]. specialize (IH a b H). rewrite Forall_forall in F.
  destruct (Qclt_le_dec x a) as [A|A]; [lia|]. destruct (Qclt_le_dec b x) as [B|B]; [lia|]. rewrite inside_none; [lia|].
  intros y Hy. specialize (F y Hy). revert F H A. generalize (Q2Qc (2 # 100000000000000000000)). clear. qcx.
Qed.
Lemma gaps_spread l : StronglySorted (fun x y => Q2Qc (2 # 100000000000000000000) < y - x) l -> (3 <= length l)%nat -> spread_out l.
Proof. intros S L a b H. assert (K := gaps_inside l S a b H). lia. Qed.
Definition qi (z : Z) : Qc := Q2Qc (inject_Z z).
Ltac gaps := repeat constructor.
Definition data8 : list Qc := map qi [1; 2; 3; 4; 5; 6; 7; 1000]%Z.
Lemma data8_spread : spread_out data8.
Proof. apply gaps_spread; [gaps|cbn; lia]. Qed.
Lemma data8_spread5 : spread_out (stretched (qi 5) data8).
Proof. apply gaps_spread; [gaps|cbn; lia]. Qed.
Lemma data8_most : most (qi 1) (qi 7) data8. Proof. unfold most. vm_compute. repeat constructor. Qed.
Definition is_num (r : res) (q : Q) : bool := match r with Num v => Qeq_bool v q | _ => false end.
Lemma is_num_eq r q : is_num r q = true -> r = Num (Q2Qc q).
Proof. destruct r; cbn; intro H; try discriminate. apply Qeq_bool_iff in H. f_equal. apply Qc_is_canon. cbn. rewrite Qred_correct. exact H. Qed.
Lemma filter_len {A} (p : A -> bool) l : (length (filter p l) <= length l)%nat.
Proof. induction l; cbn; [lia|]. destruct (p a); cbn; lia. Qed.
Lemma mean_few cut l : (length l <= 3)%nat -> mean cut l = ValueError.
Proof.
  intro L. unfold mean. destruct (median l) as [c|]; [|reflexivity]. destruct (max_abs_dev c l) as [m|]; [|reflexivity].
  destruct (qmean (filter _ l)) as [d|]; [|reflexivity]. cbv zeta.
  set (g := filter (fun x => within_root _ _ _ _) l). assert (K : (length g <= 3)%nat) by (unfold g; eapply Nat.le_trans; [apply filter_len|exact L]).
  destruct (qmean g); [|reflexivity]. assert (E : (3 <? length g)%nat = false) by (apply Nat.ltb_ge; exact K). rewrite E. reflexivity.
Qed.
Definition data7 : list Qc := map qi [1; 2; 3; 4; 5; 1000; 1001]%Z.
Definition two_points (u v : list Qc) (order : nat) : list Qc :=
  match u, v with
  | [a; b], [c; d] => [c - (d - c) / (b - a) * a; (d - c) / (b - a)]
  | _, _ => repeat 0 (S order)
  end.
Lemma pair_eq (a b c d : Qc) : a = c -> b = d -> [a; b] = [c; d].
Proof. intros -> ->. reflexivity. Qed.
Lemma two_points_len u v : length (two_points u v 1) = 2%nat.
Proof. destruct u as [|? [|? [|]]], v as [|? [|? [|]]]; reflexivity. Qed.
Lemma two_points_fit s t : let u := map (fun a => a - s) [qi 1; qi 3] in let v := map (fun a => a - t) [qi 5; qi 9] in
  map (poly_value (rev (two_points u v 1))) u = v.
Proof.
  cbn [map two_points rev app]. unfold poly_value. cbn [fold_left].
  assert (N : qi 3 - s - (qi 1 - s) <> 0).
  { replace (qi 3 - s - (qi 1 - s)) with (qi 3 - qi 1) by ring. intro H. apply (f_equal this) in H. discriminate H. }
  revert N. generalize (qi 3), (qi 1), (qi 5), (qi 9). intros a b c d N. apply pair_eq; field; exact N.
Qed.
Lemma triple_eq (a b c d e f : Qc) : a = d -> b = e -> c = f -> [a; b; c] = [d; e; f].
Proof. intros -> -> ->. reflexivity. Qed.
