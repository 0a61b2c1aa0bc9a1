(** Example runs for interferometer definition files. *)
From Coq Require Import Ascii String.
From Coq Require Import List ZArith Bool Lia QArith Qround Qabs Lqa.
From Verif Require Import M_Str P_Str P_Bar M_Sdf S_Sdf P_Sdf P_SdfRun P_SdfObs P_SdfAll P_SdfBack M_Idf S_Idf P_Idf P_IdfAll.
Import ListNotations.
Open Scope Z_scope.

Definition yes : scan -> bool := fun _ => true.
Definition yes2 : scan -> apc -> bool := fun _ _ => true.
Definition scan1 (mpm : Z) (p : pointing) (gain asp : Z) (l : list apc) : scan :=
  mkScan (tx "3C196") (tx "target") (Some (tx "Remarks")) 60000 mpm 10000 p 1000000000 1500000000 7 gain asp l.
Definition run1 (l : list scan) : irun := mkRun 1 (tx "Run") (tx "Remarks") (tx "UCF") 512 1 (tx "Linear") [tx "VL"; tx "SV"] l.
Definition ip1 (l : list scan) : iproj := mkIp 1 (tx "Observer") (tx "AB001") (tx "Project") (tx "Remarks") (run1 l).
Definition apc1 (ra : Q) (pm : Q * Q) : apc := mkApc (tx "Other") (tx "target") ra 0 pm.
Lemma apc1_wf : forall ra pm, coord_ok true ra 0 -> apc_wf (apc1 ra pm).
Proof. intros ra pm C. split; cbn; [apply cleanb; vm_compute; reflexivity|right; right; left; reflexivity|auto]. Qed.
Lemma scan1_wf : forall mpm p g a l, 0 <= mpm < 86400000 -> match p with ToRaDec ra de _ => coord_ok true ra de | _ => True end -> Forall apc_wf l -> scan_wf (scan1 mpm p g a l).
Proof. intros mpm p g a l M P A. split; cbn [scan1 n_target n_intent n_comments n_mpm n_to n_alts]; auto; [apply cleanb; vm_compute; reflexivity|right; right; left; reflexivity|right; apply cleanb; vm_compute; reflexivity]. Qed.
Lemma ip1_wf : forall l, Forall scan_wf l -> iproj_wf (ip1 l).
Proof.
  intros l H. split; cbn [ip1 i_piname i_id i_name i_comments i_run]; try (apply cleanb; vm_compute; reflexivity); [right; apply cleanb; vm_compute; reflexivity|].
  split; cbn [run1 r_name r_comments r_method r_channels r_inttime r_basis r_stations r_scans]; auto.
  - apply cleanb. vm_compute. reflexivity.
  - right. apply cleanb. vm_compute. reflexivity.
  - left. reflexivity.
  - split; [lia|reflexivity].
  - split; vm_compute; congruence.
  - exists (tx "linear"). split; [left; reflexivity|]. unfold letters_of. repeat (apply Forall2_cons; [first [left; reflexivity|right; vm_compute; split; [split; congruence|reflexivity]]|]). apply Forall2_nil.
  - split; [cbn; lia|]. apply Forall_cons; [left; reflexivity|]. apply Forall_cons; [right; left; reflexivity|]. apply Forall_nil.
Qed.
Lemma ip1_back : forall l, Forall scan_wf l -> iproj_ok yes yes2 yes2 (ip1 l) = inr true -> exists t, render_idf yes yes2 yes2 (ip1 l) = inr t /\ parse_idf t = back_idf (in_order (ip1 l)).
Proof.
  intros l W H. destruct (render_idf yes yes2 yes2 (ip1 l)) as [e|t] eqn:E; [unfold render_idf in E; rewrite H in E; discriminate|]. exists t. split; auto. apply (render_parse_idf yes yes2 yes2); auto. apply ip1_wf. auto.
Qed.
