(** Dates in single precision, and writes that fail. *)
From Coq Require Import String.
From Coq Require Import List ZArith QArith Qabs Sorted Permutation Bool Lia Lqa.
From Verif Require Import M_Uvfits S_Idi S_Uvfits P_Base P_Idi P_Idi5.
Import ListNotations.
Open Scope Z_scope.

Section Dates.
Context {V W U P X : Type} (E : sky V W U P).
Variables (par : Q -> Q -> Q) (eps : Q).
Hypothesis Hpar : forall z x, (Qabs (par z x - (z + x)) <= eps)%Q.
Notation integration := (@integration V W P).
Lemma kept_near : forall (l : list integration) i, (Qabs (kept_date E par l i - utcjd E (i_time i)) <= 2 * eps)%Q.
Proof.
  intros l i. unfold kept_date. set (R := first_day E l). set (a := day0 E (i_time i)). set (b := utcjd E (i_time i)).
  pose proof (Hpar R (a - R)) as H1. pose proof (Hpar 0 (b - a)) as H2. apply Qabs_Qle_condition in H1. apply Qabs_Qle_condition in H2.
  apply Qabs_Qle_condition. lra.
Qed.
Lemma kept_order : forall l : list integration,
  StronglySorted (fun i j => i_time i < i_time j /\ utcjd E (i_time i) + 4 * eps < utcjd E (i_time j))%Q l -> dates_kept E par l.
Proof.
  intros l H. unfold dates_kept. eapply sorted_impl; [|apply H]. intros i j (H1 & H2). split; [exact H1|].
  pose proof (kept_near l i) as K1. pose proof (kept_near l j) as K2. apply Qabs_Qle_condition in K1. apply Qabs_Qle_condition in K2. lra.
Qed.
End Dates.

Lemma write_keeps : forall V W U P X (E : sky V W U P) par (w : writer V W P X) w' r, write_uv E par w = (w', r) ->
  w' = with_data w (w_data w') /\ match r with Ok _ => w_data w' = [] | Raise _ => Permutation (w_data w') (w_data w) end.
Proof.
  intros V W U P X E par w w' r H. unfold write_uv in H. destruct w as [k mode stk nst nch ref wd fr arr data]. cbn [w_nstokes w_freq w_array w_data w_stokes w_kind w_nchan w_ref] in *.
  assert (Same : forall e, (mkWr k mode stk nst nch ref wd fr arr data, Raise e : res (ufits V U P X)) = (w', r) ->
    w' = with_data (mkWr k mode stk nst nch ref wd fr arr data) (w_data w') /\ match r with Ok _ => w_data w' = [] | Raise _ => Permutation (w_data w') data end).
  { intros e K. injection K as <- <-. split; [reflexivity|]. apply Permutation_refl. }
  destruct (nst =? 0); [eapply Same; eauto|]. destruct (zlen fr =? 0); [eapply Same; eauto|]. destruct (1 <? zlen fr); [eapply Same; eauto|].
  destruct arr as [|g gs]; [eapply Same; eauto|]. destruct fr as [|b bs]; [eapply Same; eauto|]. destruct (zlen data =? 0); [eapply Same; eauto|].
  match type of H with match ?x with _ => _ end = _ => destruct x as [f|e] end; injection H as <- <-; cbn [with_data w_data w_kind w_mode w_stokes w_nstokes w_nchan w_ref w_width w_freq w_array].
  - split; reflexivity.
  - split; [reflexivity|]. symmetry. apply sort_ds_perm.
Qed.
