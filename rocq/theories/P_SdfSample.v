(** Example projects for session definition files. *)
From Coq Require Import Ascii String.
From Coq Require Import List ZArith Bool Lia QArith Qround Qabs Lqa.
From Verif Require Import M_Str P_Str P_Bar M_Sdf S_Sdf P_Sdf P_SdfRun P_SdfObs P_SdfAll P_SdfBack.
Import ListNotations.
Open Scope Z_scope.

Definition none256 : list Z := repeat (-1) 256.
Definition fee256 : list (Z * Z) := repeat (-1, -1) 256.
(** An observation with nothing set. *)
Definition plain (mpm : Z) (s : setup) : obs := mkObs (tx "Title") (tx "Target") (tx "Remarks") 60000 mpm 10000 s (-1) None fee256 none256 none256 none256 none256.
Definition solar (hdr : bool) : setup := TRK Sun 1000000000 1500000000 7 hdr.
Definition with_gain g o := mkObs (o_name o) (o_target o) (o_comments o) (o_mjd o) (o_mpm o) (o_dur o) (o_setup o) g (o_bdm o) (o_fee o) (o_flt o) (o_at1 o) (o_at2 o) (o_at3 o).
Definition with_bdm b o := mkObs (o_name o) (o_target o) (o_comments o) (o_mjd o) (o_mpm o) (o_dur o) (o_setup o) (o_gain o) b (o_fee o) (o_flt o) (o_at1 o) (o_at2 o) (o_at3 o).
Definition with_fee f o := mkObs (o_name o) (o_target o) (o_comments o) (o_mjd o) (o_mpm o) (o_dur o) (o_setup o) (o_gain o) (o_bdm o) f (o_flt o) (o_at1 o) (o_at2 o) (o_at3 o).
Definition with_asp f a o := mkObs (o_name o) (o_target o) (o_comments o) (o_mjd o) (o_mpm o) (o_dur o) (o_setup o) (o_gain o) (o_bdm o) (o_fee o) f a (o_at2 o) (o_at3 o).
Definition with_texts n c o := mkObs n (o_target o) c (o_mjd o) (o_mpm o) (o_dur o) (o_setup o) (o_gain o) (o_bdm o) (o_fee o) (o_flt o) (o_at1 o) (o_at2 o) (o_at3 o).
Definition with_dur d o := mkObs (o_name o) (o_target o) (o_comments o) (o_mjd o) (o_mpm o) d (o_setup o) (o_gain o) (o_bdm o) (o_fee o) (o_flt o) (o_at1 o) (o_at2 o) (o_at3 o).
Definition sample_ses (l : list obs) : session :=
  mkSes 1 (tx "Session") (tx "Remarks") (tx "UCF") 0 2 0 0 [] [-1; -1; -1; -1; -1; -1; -1; -1; -1] [-1; -1; -1; -1; -1; -1; -1; -1; -1] false false false false l.
Definition sample (l : list obs) : project := mkProj 1 (tx "Observer") (tx "AB001") (tx "Project") (tx "Remarks") (sample_ses l).

Lemma plain_wf : forall mpm s, 0 <= mpm < 86400000 -> (match s with TBT n => 10000 = tbt_dur n | TRK (RaDec ra de) _ _ _ _ => coord_ok true ra de | STEPPED _ _ ss => Forall (fun p => coord_ok (p_radec p) (p_c1 p) (p_c2 p)) ss | _ => True end) -> obs_wf (plain mpm s).
Proof. intros mpm s M S. split; cbn [plain o_name o_target o_comments o_mpm o_bdm o_setup o_dur]; auto; right; apply cleanb; vm_compute; reflexivity. Qed.
Lemma sample_wf : forall l, Forall obs_wf l -> proj_wf (sample l).
Proof.
  intros l H. split; cbn; try (apply cleanb; vm_compute; reflexivity); [right; apply cleanb; vm_compute; reflexivity|].
  split; cbn [sample_ses s_name s_comments s_method s_nchan s_nwin s_record s_update s_obs]; auto; try (apply cleanb; vm_compute; reflexivity); try (right; apply cleanb; vm_compute; reflexivity); try lia. left. reflexivity.
Qed.
Lemma sample_back : forall l, Forall obs_wf l -> project_ok (fun _ => true) (sample l) = inr true ->
  exists t, render (fun _ => true) (sample l) = inr t /\ parse_sdf t = inr (back (settled (sample l))).
Proof.
  intros l W H. destruct (render (fun _ => true) (sample l)) as [e|t] eqn:E; [unfold render in E; rewrite H in E; discriminate|]. exists t. split; auto. apply (render_parse (fun _ => true)); auto using sample_wf.
Qed.
Lemma two_wf : forall a b, obs_wf a -> obs_wf b -> Forall obs_wf [a; b].
Proof. auto. Qed.
Lemma one_wf : forall a, obs_wf a -> Forall obs_wf [a].
Proof. auto. Qed.
Lemma gain_wf : forall g o, obs_wf o -> obs_wf (with_gain g o).
Proof. intros g o [A B C D E F]. split; auto. Qed.
Lemma bdm_wf : forall b o, obs_wf o -> match b with Some x => bdm_ok x | None => True end -> obs_wf (with_bdm b o).
Proof. intros b o [A B C D E F] H. split; auto. Qed.
Lemma fee_wf : forall f o, obs_wf o -> obs_wf (with_fee f o).
Proof. intros g o [A B C D E F]. split; auto. Qed.
Lemma asp_wf : forall f a o, obs_wf o -> obs_wf (with_asp f a o).
Proof. intros f a o [A B C D E F]. split; auto. Qed.
Lemma texts_wf : forall n c o, obs_wf o -> clean_or_empty n -> clean_or_empty c -> obs_wf (with_texts n c o).
Proof. intros n c o [A B C D E F] N H. split; auto. Qed.
Lemma all_rep : forall (A : Type) (x : A) n, Forall (eq x) (repeat x n).
Proof. intros A x n. apply Forall_forall. intros y Y. apply repeat_spec in Y. auto. Qed.
