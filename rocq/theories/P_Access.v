(** Proofs about the data cache. *)
From Coq Require Import List ZArith Bool Lia.
From Verif Require Import LibList M_Py M_Access S_Access.
Import ListNotations.
Open Scope Z_scope.

Lemma last_cons {A} (x : A) l d : last (x :: l) d = last l x.
Proof. revert x d. induction l as [|y l IH]; intros x d; [reflexivity|]. change (last (x :: y :: l) d) with (last (y :: l) d). rewrite !IH. reflexivity. Qed.
Lemma last_app {A} (a b : list A) d : last (a ++ b) d = last b (last a d).
Proof. revert d. induction a as [|x a IH]; intro d; [reflexivity|]. cbn [app]. rewrite !last_cons. apply IH. Qed.
Lemma grow_last now l : forall have d, last (grow now have l) (Some (have, now)) = Some (have ++ concat (map snd l), now) /\ (l <> [] -> last (grow now have l) d = Some (have ++ concat (map snd l), now)).
Proof.
  induction l as [|[n x] l IH]; intros have d; cbn [grow map snd concat].
  - rewrite app_nil_r. split; [reflexivity|congruence].
  - rewrite !last_cons. destruct (IH (have ++ x) d) as [A _]. rewrite A, <- app_assoc. auto.
Qed.
Lemma filled_last now l d : last (filled now l) d = Some (concat (map snd l), now).
Proof. unfold filled. rewrite last_cons. apply (grow_last now l [] d). Qed.
Lemma received_sum l : received l = fold_right Z.add 0 (map fst l).
Proof. unfold received. induction l as [|b l IH]; cbn; [reflexivity|]. rewrite IH. reflexivity. Qed.
Lemma cut_all size : (0 < size)%nat -> forall n d, (length d <= n)%nat -> concat (map snd (cut n size d)) = d /\ received (cut n size d) = zlen d.
Proof.
  intros P. induction n as [|n IH]; intros d L; [destruct d; [split; reflexivity|cbn in L; lia]|]. cbn [cut]. destruct d as [|x d]; [split; reflexivity|]. set (w := x :: d) in *.
  destruct (IH (skipn size w)) as [A B].
  { rewrite skipn_length. assert (length w = S (length d)) by reflexivity. lia. }
  cbn [map concat snd received fold_right fst]. change (fold_right (fun (b : Z * list Z) s => fst b + s) 0 (cut n size (skipn size w))) with (received (cut n size (skipn size w))). rewrite A, B. split; [apply firstn_skipn|].
  unfold zlen. rewrite <- (firstn_skipn size w) at 3. rewrite app_length. lia.
Qed.
(** the result of one attempt *)
Lemma download_ok now t d : match fst (download now t) with
  | Ok true => taken t /\ last (snd (download now t)) d = Some (delivered t, now)
  | Ok false => ~ taken t /\ ~ throws t /\ last (snd (download now t)) d = None
  | Raise e => exists l, t = Fails e l end.
Proof.
  destruct t as [l|l|e l]; cbn [download].
  - destruct (Z.ltb_spec (received l) 3) as [L|L]; cbn [fst snd].
    + split; [|split]; [intros [_ K]; unfold on_the_wire in K; cbn in K; rewrite <- received_sum in K; lia|intros [e [l' E]]; discriminate|]. rewrite last_app. reflexivity.
    + split; [split; [exists l; reflexivity|unfold on_the_wire; cbn; rewrite <- received_sum; exact L]|]. apply filled_last.
  - cbn [fst snd]. split; [intros [[l' E] _]; discriminate|]. split; [intros [e [l' E]]; discriminate|]. rewrite last_app. reflexivity.
  - exists l. reflexivity.
Qed.
Lemma local_ok now size local d : (0 < size)%nat -> match fst (local_copy now size local) with
  | Ok true => usable local /\ exists c t, local = Some (c, t) /\ last (snd (local_copy now size local)) d = Some (c, now)
  | Ok false => ~ usable local /\ last (snd (local_copy now size local)) d = None
  | Raise e => False end.
Proof.
  intro P. destruct local as [[c t]|]; cbn [local_copy]; [|cbn; split; [intros [c [t [E _]]]; discriminate|reflexivity]]. destruct (cut_all size P (length c) c (le_n _)) as [A B]. rewrite B. unfold zlen. destruct (Z.ltb_spec (Z.of_nat (length c)) 3) as [L|L]; cbn [fst snd].
  - split; [intros [c' [t' [E K]]]; injection E as -> ->; lia|]. rewrite last_app. reflexivity.
  - split; [exists c, t; split; [reflexivity|lia]|]. exists c, t. split; [reflexivity|]. rewrite filled_last, A. reflexivity.
Qed.
Lemma fetch_new_ok now size local t1 t2 d : (0 < size)%nat -> let r := fetch_new now size local t1 t2 in
  match fst r with
  | Ok _ => (usable local /\ exists c t, local = Some (c, t) /\ last (snd r) d = Some (c, now)) \/
            (~ usable local /\ taken t1 /\ last (snd r) d = Some (delivered t1, now)) \/
            (~ usable local /\ ~ taken t1 /\ ~ throws t1 /\ taken t2 /\ last (snd r) d = Some (delivered t2, now))
  | Raise e => ~ usable local /\ ((exists l, t1 = Fails e l) \/ (~ taken t1 /\ exists l, t2 = Fails e l) \/ (e = RuntimeError /\ ~ taken t1 /\ ~ throws t1 /\ ~ taken t2 /\ ~ throws t2 /\ last (snd r) d = None))
  end.
Proof.
  intros P r. subst r. unfold fetch_new. pose proof (local_ok now size local d P) as L. destruct (local_copy now size local) as [[[|]|e] l0]; cbn [fst snd then_if_not] in *.
  - left. exact L.
  - destruct L as [NU L]. pose proof (download_ok now t1 (last l0 d)) as D1. destruct (download now t1) as [[[|]|e] l1]; cbn [fst snd then_if_not] in *.
    + rewrite last_app. right. left. destruct D1 as [A B]. auto.
    + destruct D1 as [NT [NE D1]]. pose proof (download_ok now t2 (last l1 (last l0 d))) as D2. destruct (download now t2) as [[[|]|e] l2]; cbn [fst snd] in *.
      * rewrite !last_app. right. right. destruct D2 as [A B]. auto 10.
      * rewrite !last_app. split; [exact NU|]. right. right. destruct D2 as [A [B C]]. auto 10.
      * split; [exact NU|]. right. left. auto.
    + split; [exact NU|]. left. exact D1.
  - destruct L.
Qed.
