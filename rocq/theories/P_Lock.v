(** Proofs about the locks. *)
From Coq Require Import List Arith Bool Lia.
From Verif Require Import M_Lock S_Lock.
Import ListNotations.

Lemma upd_same : forall A (m : nat -> A) k v, upd m k v k = v.
Proof. intros. unfold upd. rewrite Nat.eqb_refl. auto. Qed.
Lemma upd_other : forall A (m : nat -> A) k v j, j <> k -> upd m k v j = m j.
Proof. intros. unfold upd. destruct (Nat.eqb_spec j k); congruence. Qed.
Lemma drop_some : forall c fl i d, drop_flock c fl i = Some d <-> fl i = Some d /\ d <> c.
Proof.
  intros c fl i d. unfold drop_flock. destruct (fl i) as [e|]; [|split; [discriminate|intros [H _]; discriminate]].
  destruct (Nat.eqb_spec e c); split.
  - discriminate.
  - intros [H1 H2]. congruence.
  - intro H. inversion H; subst. auto.
  - intros [H _]. auto.
Qed.

(** flock and pc agree; inodes are below [fresh]; only locked objects have users (at most one). *)
Record inv (s : lock_st) : Prop := mkInv {
  i_flock : forall i c, flock s i = Some c <-> (pc s c = Flocked i \/ pc s c = Held i);
  i_fresh_path : forall i, path s = Some i -> i < fresh s;
  i_fresh : forall c i, pc s c = Opened i \/ pc s c = Flocked i \/ pc s c = Held i -> i < fresh s }.
Lemma inv_start : inv start.
Proof. constructor; cbn; intros; try discriminate. - split; [discriminate|intros [H|H]; discriminate]. - destruct H as [H|[H|H]]; discriminate. Qed.

Ltac upds := repeat match goal with
  | H : context [upd ?m ?k ?v ?j] |- _ => unfold upd in H
  | |- context [upd ?m ?k ?v ?j] => unfold upd end.
Lemma inv_step : forall a s, inv s -> inv (step a s).
Proof.
  intros a s I. pose proof (i_flock s I) as F. pose proof (i_fresh_path s I) as FP. pose proof (i_fresh s I) as FI.
  destruct a as [c|c|c t|c t|c t|c|]; cbn [step].
  - destruct (pc s c) eqn:P; auto. destruct (path s) as [i|] eqn:PT; constructor; cbn [flock pc path fresh]; auto.
    + intros j d. rewrite F. upds. destruct (Nat.eqb_spec d c); [subst|reflexivity]. rewrite P. split; intros [H|H]; discriminate.
    + intros d j. upds. destruct (Nat.eqb_spec d c); [subst|apply FI]. intros [H|[H|H]]; inversion H; subst. auto.
    + intros j d. rewrite F. upds. destruct (Nat.eqb_spec d c); [subst|reflexivity]. rewrite P. split; intros [H|H]; discriminate.
    + intros j H. inversion H. lia.
    + intros d j. upds. destruct (Nat.eqb_spec d c); [subst|]. { intros [H|[H|H]]; inversion H; subst. auto. } intro H. apply FI in H. lia.
  - destruct (pc s c) as [|i| |] eqn:P; auto. destruct (flock s i) as [d|] eqn:FL; constructor; cbn [flock pc path fresh]; auto.
    + intros j e. rewrite F. upds. destruct (Nat.eqb_spec e c); [subst|reflexivity]. rewrite P. split; intros [H|H]; discriminate.
    + intros e j. upds. destruct (Nat.eqb_spec e c); [subst|apply FI]. intros [H|[H|H]]; inversion H.
    + intros j e. upds. destruct (Nat.eqb_spec j i), (Nat.eqb_spec e c); subst.
      * split; auto.
      * split; [intro H; inversion H; congruence|]. intro H. apply F in H. congruence.
      * rewrite F, P. split; intros [H|H]; try discriminate; inversion H; congruence.
      * apply F.
    + intros e j. upds. destruct (Nat.eqb_spec e c); [subst|apply FI]. intros [H|[H|H]]; inversion H; subst. apply (FI c). auto.
  - destruct (pc s c) as [| |i|] eqn:P; auto.
    assert (K : inv (mkL (path s) (fresh s) (drop_flock c (flock s)) (upd (pc s) c Idle) (users s))).
    { constructor; cbn [flock pc path fresh]; auto.
      - intros j e. rewrite drop_some, F. upds. destruct (Nat.eqb_spec e c); [subst|tauto]. split; [tauto|intros [H|H]; discriminate].
      - intros e j. upds. destruct (Nat.eqb_spec e c); [subst|apply FI]. intros [H|[H|H]]; discriminate. }
    destruct (path s) as [j|] eqn:PT; auto. destruct (Nat.eqb_spec j i); auto. subst j. constructor; cbn [flock pc path fresh]; auto.
    + intros j e. rewrite F. upds. destruct (Nat.eqb_spec e c); [subst|reflexivity]. rewrite P. split; intros [H|H]; inversion H; auto.
    + intros e j. upds. destruct (Nat.eqb_spec e c); [subst|apply FI]. intros [H|[H|H]]; inversion H; subst. auto.
  - destruct (pc s c) eqn:P; auto. constructor; cbn [flock pc path fresh]; auto.
  - destruct (pc s c) eqn:P; auto. constructor; cbn [flock pc path fresh]; auto.
    + intros j e. rewrite drop_some, F. upds. destruct (Nat.eqb_spec e c); [subst|tauto]. split; [tauto|intros [H|H]; discriminate].
    + intros e j. upds. destruct (Nat.eqb_spec e c); [subst|apply FI]. intros [H|[H|H]]; discriminate.
  - constructor; cbn [flock pc path fresh]; auto.
    + intros j e. rewrite drop_some, F. upds. destruct (Nat.eqb_spec e c); [subst|tauto]. split; [tauto|intros [H|H]; discriminate].
    + intros e j. upds. destruct (Nat.eqb_spec e c); [subst|apply FI]. intros [H|[H|H]]; discriminate.
  - constructor; cbn [flock pc path fresh]; auto. discriminate.
Qed.
Lemma inv_run : forall l s, inv s -> inv (run l s).
Proof. induction l as [|a l IH]; intros s I; cbn; auto. apply IH. apply inv_step. auto. Qed.

(** users only of locked objects, at most one each *)
Definition single (s : lock_st) : Prop := forall c, match pc s c with Held _ => exists t, users s c = [t] | _ => users s c = [] end.
Definition careful1 (a : act) (s : lock_st) : Prop :=
  match a with AUnlink => nobody s | AJoin c _ => forall u, ~ holds s c u | ARelease c t => forall u, holds s c u -> u = t | _ => True end.
Lemma single_step : forall a s, single s -> careful1 a s -> single (step a s).
Proof.
  intros a s S NJ. destruct a as [c|c|c t|c t|c t|c|]; cbn [step careful1] in *; try exact S.
  - pose proof (S c) as SC. destruct (pc s c) eqn:P; auto. destruct (path s); intro d; cbn [pc users]; unfold upd; destruct (Nat.eqb_spec d c); try apply S; subst; auto.
  - pose proof (S c) as SC. destruct (pc s c) as [|i| |] eqn:P; auto. destruct (flock s i); intro d; cbn [pc users]; unfold upd; destruct (Nat.eqb_spec d c); try apply S; subst; auto.
  - pose proof (S c) as SC. destruct (pc s c) as [| |i|] eqn:P; auto. destruct (path s) as [j|]; [destruct (Nat.eqb_spec j i)|];
      intro d; cbn [pc users]; unfold upd; destruct (Nat.eqb_spec d c); try apply S; subst; auto. rewrite SC. eauto.
  - pose proof (S c) as SC. destruct (pc s c) as [| | |i] eqn:P; auto. destruct SC as [u U]. exfalso. apply (NJ u). unfold holds. rewrite U. left. auto.
  - pose proof (S c) as SC. destruct (pc s c) as [| | |i] eqn:P; auto. destruct SC as [u U].
    assert (u = t) by (apply NJ; unfold holds; rewrite U; left; auto). subst u.
    intro d. cbn [pc users]. unfold upd. destruct (Nat.eqb_spec d c); [|apply S]. subst. rewrite U. cbn. rewrite Nat.eqb_refl. auto.
  - intro d. cbn [pc users]. unfold upd. destruct (Nat.eqb_spec d c); [auto|apply S].
Qed.
(** whoever holds the lock holds the file that is there *)
Definition current (s : lock_st) : Prop := forall c i, pc s c = Held i -> path s = Some i.
Lemma current_step : forall a s, inv s -> single s -> current s -> careful1 a s -> current (step a s).
Proof.
  intros a s I S C CA. destruct a as [c|c|c t|c t|c t|c|]; cbn [step careful1] in *.
  - destruct (pc s c) eqn:P; auto. destruct (path s) as [i|] eqn:PT; intros d j; cbn [pc path]; upds; destruct (Nat.eqb_spec d c); try discriminate; intro H.
    + rewrite <- PT. eapply C; eauto.
    + apply C in H. congruence.
  - destruct (pc s c) as [|i| |] eqn:P; auto. destruct (flock s i); intros d j; cbn [pc path]; upds; destruct (Nat.eqb_spec d c); try discriminate; apply C.
  - destruct (pc s c) as [| |i|] eqn:P; auto. destruct (path s) as [k|] eqn:PT; [destruct (Nat.eqb_spec k i)|];
      intros d j; cbn [pc path]; upds; destruct (Nat.eqb_spec d c); try discriminate; intro H; try (rewrite <- PT; eapply C; eauto; fail).
    + inversion H; subst. auto.
  - destruct (pc s c) eqn:P; auto.
  - destruct (pc s c) eqn:P; auto. intros d j; cbn [pc path]; upds; destruct (Nat.eqb_spec d c); try discriminate. apply C.
  - intros d j; cbn [pc path]; upds; destruct (Nat.eqb_spec d c); try discriminate. apply C.
  - intros d j; cbn [pc path]. intro H. exfalso. pose proof (S d) as SD. rewrite H in SD. destruct SD as [t T]. apply (CA d t). unfold holds. rewrite T. left. auto.
Qed.
Lemma all_run : forall l s, inv s -> single s -> current s -> careful l s -> inv (run l s) /\ single (run l s) /\ current (run l s).
Proof.
  induction l as [|a l IH]; intros s I S C CA; cbn; auto. destruct CA as [C1 C2].
  apply IH; auto using inv_step. - apply single_step; auto. - apply current_step; auto.
Qed.
Lemma all_start : inv start /\ single start /\ current start.
Proof. split; [apply inv_start|]. split; [intro c; reflexivity|]. intros c i H. discriminate. Qed.
Lemma exclusion : forall l c1 t1 c2 t2, careful l start -> holds (run l start) c1 t1 -> holds (run l start) c2 t2 -> c1 = c2 /\ t1 = t2.
Proof.
  intros l c1 t1 c2 t2 CA H1 H2. destruct all_start as (A & B & C). destruct (all_run l start A B C CA) as (I & S & U).
  set (s := run l start) in *. unfold holds in *.
  assert (K : forall c t, In t (users s c) -> (exists i, pc s c = Held i) /\ users s c = [t]).
  { intros c t H. pose proof (S c) as SC. destruct (pc s c); try (rewrite SC in H; destruct H). destruct SC as [u SC]. rewrite SC in *. destruct H as [->|[]]. eauto. }
  destruct (K _ _ H1) as [[i P1] U1]. destruct (K _ _ H2) as [[j P2] U2].
  assert (E : i = j). { pose proof (U _ _ P1). pose proof (U _ _ P2). congruence. } subst j.
  assert (F1 : flock s i = Some c1) by (apply (i_flock s I); auto). assert (F2 : flock s i = Some c2) by (apply (i_flock s I); auto).
  assert (c1 = c2) by congruence. subst. split; auto. rewrite U1 in U2. congruence.
Qed.

(** whatever is done to the file, a lock file has at most one holder *)
Lemma per_file : forall l i c1 c2, pc (run l start) c1 = Held i -> pc (run l start) c2 = Held i -> c1 = c2.
Proof.
  intros l i c1 c2 H1 H2. assert (I := inv_run l start inv_start).
  assert (F1 : flock (run l start) i = Some c1) by (apply (i_flock _ I); auto). assert (F2 : flock (run l start) i = Some c2) by (apply (i_flock _ I); auto). congruence.
Qed.

(** an attempt nobody interferes with succeeds when the file is not locked *)
Lemma attempt_ok : forall s c t, inv s -> pc s c = Idle -> (forall i, path s = Some i -> flock s i = None) -> holds (run (attempt_by c t) s) c t.
Proof.
  intros s c t I P FR. unfold attempt_by, run. cbn [fold_left]. cbn [step]. rewrite P.
  destruct (path s) as [i|] eqn:PT; cbn [pc flock path users fresh].
  - rewrite upd_same. rewrite (FR i) by auto. cbn [pc flock path users fresh]. rewrite !upd_same. rewrite Nat.eqb_refl. unfold holds. cbn [users]. rewrite upd_same. left. auto.
  - rewrite upd_same. assert (N : flock s (fresh s) = None).
    { destruct (flock s (fresh s)) as [d|] eqn:F; auto. apply (i_flock s I) in F. assert (fresh s < fresh s) by (apply (i_fresh s I d); tauto). lia. }
    rewrite N. cbn [pc flock path users fresh]. rewrite !upd_same. rewrite Nat.eqb_refl. unfold holds. cbn [users]. rewrite upd_same. left. auto.
Qed.
Lemma free_after : forall s c i, inv s -> pc s c = Held i -> drop_flock c (flock s) i = None.
Proof. intros s c i I H. assert (F : flock s i = Some c) by (apply (i_flock s I); auto). unfold drop_flock. rewrite F, Nat.eqb_refl. auto. Qed.

Lemma run_app : forall l l' s, run (l ++ l') s = run l' (run l s).
Proof. intros. unfold run. apply fold_left_app. Qed.
Lemma release_then : forall l a c1 t1 c2 t2, careful l start -> holds (run l start) c1 t1 -> a = ARelease c1 t1 \/ a = ACrash c1 ->
  pc (run l start) c2 = Idle \/ c2 = c1 -> holds (run (l ++ a :: attempt_by c2 t2) start) c2 t2.
Proof.
  intros l a c1 t1 c2 t2 CA H HA HC. destruct all_start as (A & B & C). destruct (all_run l start A B C CA) as (I & S & U).
  rewrite run_app. set (s := run l start) in *. change (run (a :: attempt_by c2 t2) s) with (run (attempt_by c2 t2) (step a s)).
  assert (P1 : exists i, pc s c1 = Held i). { pose proof (S c1) as SC. unfold holds in H. destruct (pc s c1); try (rewrite SC in H; destruct H). eauto. }
  destruct P1 as [i P1]. pose proof (U _ _ P1) as PT.
  apply attempt_ok.
  - apply inv_step. auto.
  - destruct HA as [->| ->]; cbn [step]; [rewrite P1|]; cbn [pc]; unfold upd; destruct (Nat.eqb_spec c2 c1); auto; tauto.
  - intros j. destruct HA as [->| ->]; cbn [step]; [rewrite P1|]; cbn [path flock]; rewrite PT; intro E; inversion E; subst; apply free_after; auto.
Qed.
(** an attempt fails only because of somebody who has the file locked *)
Lemma attempt_fails : forall l c t, careful l start -> pc (run l start) c = Idle -> ~ holds (run (l ++ attempt_by c t) start) c t ->
  exists d i, d <> c /\ path (run l start) = Some i /\ (pc (run l start) d = Held i \/ pc (run l start) d = Flocked i).
Proof.
  intros l c t CA P N. assert (I := inv_run l start inv_start). rewrite run_app in N. set (s := run l start) in *.
  destruct (path s) as [i|] eqn:PT.
  - destruct (flock s i) as [d|] eqn:F.
    + exists d, i. pose proof (proj1 (i_flock s I i d) F) as Q. split; [intro E; subst; rewrite P in Q; destruct Q; discriminate|]. tauto.
    + exfalso. apply N. apply attempt_ok; auto. rewrite PT. intros j E. inversion E; subst. auto.
  - exfalso. apply N. apply attempt_ok; auto. rewrite PT. discriminate.
Qed.

(** ** MemoryLock *)
Definition minv (m : mlock) : Prop :=
  match owner m with None => forall t, inside m t = 0 | Some (o, n) => inside m o = n /\ 0 < n /\ forall t, t <> o -> inside m t = 0 end /\
  (flag m = true -> owner m <> None).
Lemma minv_step : forall a m, minv m -> minv (mstep a m).
Proof.
  intros a m [I F]. destruct a as [t|t|t]; cbn [mstep]; destruct (owner m) as [[o n]|] eqn:O; try (split; [rewrite O; exact I|rewrite O; exact F]).
  - destruct (Nat.eqb_spec o t); [|split; [rewrite O; exact I|rewrite O; exact F]]. subst t. destruct I as (I1 & I2 & I3). split; cbn [owner flag inside]; [|discriminate].
    rewrite upd_same, I1. split; [auto|]. split; [lia|]. intros t H. rewrite upd_other; auto.
  - split; cbn [owner flag inside]; [|discriminate]. rewrite upd_same, I. split; [auto|]. split; [lia|]. intros u H. rewrite upd_other; auto.
  - destruct (Nat.eqb_spec o t); [split; [rewrite O; exact I|rewrite O; exact F]|]. split; cbn [owner flag inside]; [exact I|discriminate].
  - destruct (Nat.eqb_spec o t); [|split; [rewrite O; exact I|rewrite O; exact F]]. subst t. destruct I as (I1 & I2 & I3). split; cbn [owner flag inside]; [|discriminate].
    destruct n as [|[|k]]; [lia| |].
    + intros t. destruct (Nat.eq_dec t o) as [->|N]; [rewrite upd_same, I1; auto|rewrite upd_other; auto].
    + rewrite upd_same, I1. split; [auto|]. split; [lia|]. intros t H. rewrite upd_other; auto.
Qed.
Lemma minv_run : forall l m, minv m -> minv (mrun l m).
Proof. induction l as [|a l IH]; intros m I; cbn; auto. apply IH. apply minv_step. auto. Qed.
Lemma minv_start : minv mstart.
Proof. split; cbn; [auto|discriminate]. Qed.
