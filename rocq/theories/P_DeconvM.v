(** The minor cycle. *)
From Coq Require Import List ZArith QArith Qcanon Bool Lia.
From Verif Require Import LibList M_Py M_Num M_Base P_Base S_Corr P_Corr P_GridC P_Math M_Deconv S_Deconv P_Deconv.
Import ListNotations.
Open Scope Z_scope.

Section Minor.
Context (H W : Z) (HH : 0 < H) (HW : 0 < W) (gain : Qc) (beam img : image).
Lemma quiet_iff r p : quiet_at H W r p = true <-> quiet H W r p.
Proof. unfold quiet_at, quiet. rewrite qlt_iff, imean_over, ivar_over by lia. unfold square. reflexivity. Qed.
Lemma removed_sum r p : isum (values H W (fun c => (gain * r p * roll H W (fst p - H / 2) (snd p - W / 2) beam c)%Qc)) = (gain * r p * sum_over H W beam)%Qc.
Proof. rewrite isum_over, sum_over_scale, sum_roll. reflexivity. Qed.
Lemma flux_snoc comps p c d : flux_in H W beam (comps ++ [(p, c)]) d = (flux_in H W beam comps d + (if same_cell p d then c * sum_over H W beam else 0))%Qc.
Proof.
  unfold flux_in. rewrite filter_app, map_app, total_app. unfold same_cell. cbn [filter fst snd].
  destruct ((fst p =? fst d) && (snd p =? snd d)); cbn [map total fst snd]; (apply (f_equal2 Qcplus); [reflexivity|ring]).
Qed.
Lemma minor_loop_ok n : forall comps cleaned working, cleaning H W gain beam img comps working -> (forall d, inside H W d -> cleaned d = flux_in H W beam comps d) ->
  exists out more r, minor_loop H W n gain beam cleaned working = Ok out /\ cleaning H W gain beam img (comps ++ more) r /\ (length more <= n)%nat /\
    (length more = n \/ exists p, first_greatest H W (fun c => square (r c)) p /\ quiet H W r p) /\ forall d, inside H W d -> out d = (flux_in H W beam (comps ++ more) d + r d)%Qc.
Proof.
  induction n as [|n IH]; intros comps cleaned working HC HF; cbn [minor_loop].
  - eexists _, [], working. rewrite app_nil_r. split; [reflexivity|]. split; [exact HC|]. split; [reflexivity|]. split; [left; reflexivity|]. intros d Hd. rewrite HF by exact Hd. reflexivity.
  - destruct (peak_found H W (fun c => qabs (working c)) HH HW) as [p P]. rewrite P. pose proof (greatest_square _ _ _ _ (peak_first _ _ _ _ P)) as G.
    destruct (quiet_at H W working p) eqn:Q.
    + eexists _, [], working. rewrite app_nil_r. split; [reflexivity|]. split; [exact HC|]. split; [cbn; lia|]. split; [right; exists p; split; [exact G|apply quiet_iff, Q]|]. intros d Hd. rewrite HF by exact Hd. reflexivity.
    + cbn zeta. rewrite removed_sum. edestruct (IH (comps ++ [(p, gain * working p)%Qc])) as [out [more [r [E [C [L [S F]]]]]]].
      3:{ rewrite E. exists out, ((p, (gain * working p)%Qc) :: more), r. rewrite <- app_assoc in C, F. cbn [app] in C, F. split; [reflexivity|]. split; [exact C|]. cbn [length]. split; [lia|]. split; [|exact F].
          destruct S as [S|S]; [left; lia|right; exact S]. }
      * apply cleaning_next with (r := working); [exact HC|exact G| |].
        { intro K. apply quiet_iff in K. congruence. }
        { intros d _. rewrite roll_centred. reflexivity. }
      * intros d Hd. rewrite flux_snoc. unfold add_at. rewrite HF by exact Hd. destruct (same_cell p d); ring.
Qed.
Lemma minor_sum n : forall cleaned working out, minor_loop H W n gain beam cleaned working = Ok out -> sum_over H W out = (sum_over H W cleaned + sum_over H W working)%Qc.
Proof.
  induction n as [|n IH]; intros cleaned working out E; cbn [minor_loop] in E.
  - injection E as <-. apply sum_over_plus.
  - destruct (peak_of H W (fun c => qabs (working c))) as [p|] eqn:P; [|discriminate]. destruct (quiet_at H W working p); [injection E as <-; apply sum_over_plus|].
    cbn zeta in E. apply IH in E. rewrite E. rewrite removed_sum, (sum_over_minus H W working). rewrite <- (isum_over H W (fun c => (gain * working p * roll H W (fst p - H / 2) (snd p - W / 2) beam c)%Qc)), removed_sum.
    assert (A : forall v, sum_over H W (add_at p v cleaned) = (sum_over H W cleaned + v)%Qc).
    { intro v. apply peak_first in P. destruct P as [[I1 I2] _]. transitivity (sum_over H W (fun c => cleaned c + (if same_cell p c then v else 0))%Qc).
      - apply sum_over_ext. intros c _. unfold add_at. destruct (same_cell p c); ring.
      - rewrite sum_over_plus. f_equal. unfold sum_over. rewrite !upto_range. transitivity (total (map (fun x => if fst p =? x then v else 0%Qc) (range 0 H))); [|apply total_single; exact I1].
        apply total_ext. intros x _. unfold same_cell. cbn [fst snd]. destruct (fst p =? x); cbn [andb]; [apply total_single; exact I2|]. induction (range 0 W) as [|y l IHl]; cbn [map total]; [reflexivity|rewrite IHl; ring]. }
    rewrite A. ring.
Qed.
End Minor.
