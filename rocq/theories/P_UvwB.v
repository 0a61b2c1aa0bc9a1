From Coq Require Import List ZArith Reals Bool Lia Lra.
From Verif Require Import M_Py M_Base S_Base P_Base M_Uvw S_Uvw P_Uvw P_UvwA.
Import ListNotations.
Open Scope R_scope.

Lemma collect_inv : forall {A} (l : list (res A)) r, collect l = Ok r -> l = map (fun x => Ok x) r.
Proof.
  induction l as [|x l IH]; intros r H; [inversion H; reflexivity|]. cbn in H. destruct x as [x|]; [|discriminate]. cbn in H.
  destruct (collect l) as [y|]; [|discriminate]. cbn in H. inversion H; subst. cbn. f_equal. apply IH. reflexivity.
Qed.
Lemma all_ok : forall {A B} (f : A -> res B) (l : list (res A)) r, collect (map (fun x => bind x f) l) = Ok r -> forall x, In x l -> exists y, x = Ok y.
Proof.
  intros A B f l r H x I. apply collect_inv in H.
  assert (J : In (bind x f) (map (fun x => bind x f) l)) by (apply in_map_iff; exists x; auto). rewrite H in J. apply in_map_iff in J. destruct J as (z & E & _).
  destruct x as [y|e]; [eauto|discriminate].
Qed.

Lemma In_znth : forall {A} (d : A) x l, In x l -> exists i, (0 <= i < zlen l)%Z /\ znth d i l = x.
Proof.
  intros A d x l H. apply (In_nth l x d) in H. destruct H as (n & L & E). exists (Z.of_nat n). unfold zlen, znth. split; [lia|].
  destruct (Z.ltb_spec (Z.of_nat n) 0); [lia|]. rewrite Nat2Z.id. exact E.
Qed.
Lemma pick_inv : forall l auto rs, pick_baselines l auto = Ok rs -> (forall x, In x rs -> exists y, x = Ok y) -> exists bl, asks l auto bl.
Proof.
  intros l auto rs H HA. destruct l as [|i l]; [discriminate|]. destruct i as [a|s|].
  - unfold pick_baselines in H. set (L := IAnt a :: l) in *. rewrite (get_baselines_ok IOther) in H by lia. unfold bind at 1 in H. match type of H with Ok ?a = Ok ?b => assert (H0 : a = b) by congruence end. clear H.
    assert (G : forall i j, (0 <= i)%Z -> (j < zlen L)%Z -> (if auto then i <= j else i < j)%Z -> exists x y, znth IOther i L = IAnt x /\ znth IOther j L = IAnt y).
    { intros i j Hi Hj Hij. destruct (HA ((fun xy => bind (match fst xy with IAnt a => Ok a | _ => Raise AttributeError end) (fun x => bind (match snd xy with IAnt a => Ok a | _ => Raise AttributeError end) (fun y => Ok (x, y)))) (znth IOther i L, znth IOther j L))) as (y & E).
      - rewrite <- H0. rewrite map_map. apply in_map_iff. exists (i, j). split; [reflexivity|]. apply (proj2 (pairs_all auto (zlen L)) i j). auto.
      - cbn [fst snd] in E. destruct (znth IOther i L); try discriminate. destruct (znth IOther j L); try discriminate. eauto. }
    assert (F : forall x, In x L -> exists y, x = IAnt y).
    { intros x I. destruct (In_znth IOther x L I) as (i & Hi & <-). destruct (Z.eq_dec i 0) as [->|NZ]; [exists a; reflexivity|].
      destruct (G 0%Z i ltac:(lia) ltac:(lia) ltac:(destruct auto; lia)) as (u & y & _ & E). eauto. }
    assert (M : exists ants, L = map IAnt ants).
    { clear - F. induction L as [|x L IH]; [exists []; reflexivity|]. destruct (F x (or_introl eq_refl)) as (y & ->).
      destruct IH as (r & ->); [intros; apply F; right; auto|]. exists (y :: r). reflexivity. }
    destruct M as (ants & E). rewrite E. eexists. left. exists a, ants, (pairs (if auto then 0 else 1)%Z (zlen ants)).
    split; [intro X; subst ants; discriminate|]. split; [reflexivity|]. split; [apply pairs_all|reflexivity].
  - destruct s as [|e s]; [discriminate|]. destruct e as [a|]; [|discriminate]. unfold pick_baselines in H.
    destruct (Nat.eqb (length s) 1) eqn:E; [|discriminate]. set (L := ISeq (EAnt a :: s) :: l) in *. match type of H with Ok ?a = Ok ?b => assert (H0 : a = b) by congruence end. clear H.
    assert (M : exists bl, L = map (fun p => ISeq [EAnt (fst p); EAnt (snd p)]) bl).
    { assert (F : forall x, In x L -> exists p q, x = ISeq [EAnt p; EAnt q]).
      { intros x I. destruct (HA ((fun i => match i with
                          | ISeq [e; f] => bind (match e with EAnt a => Ok a | EOther => Raise AttributeError end) (fun x => bind (match f with EAnt a => Ok a | EOther => Raise AttributeError end) (fun y => Ok (x, y)))
                          | ISeq _ => Raise ValueError
                          | _ => Raise TypeError
                          end) x)) as (y & Ey).
        - rewrite <- H0. apply in_map_iff. exists x. auto.
        - destruct x as [b|r|]; try discriminate. destruct r as [|e1 [|e2 [|e3 r]]]; try discriminate. destruct e1, e2; try discriminate. eauto. }
      clear - F. induction L as [|x L IH]; [exists []; reflexivity|]. destruct (F x (or_introl eq_refl)) as (p & q & ->).
      destruct IH as (r & ->); [intros; apply F; right; auto|]. exists ((p, q) :: r). reflexivity. }
    destruct M as (bl & M). exists bl. right. split; [intro X; subst bl; discriminate|exact M].
  - discriminate.
Qed.
Lemma compute_inv : forall light l HA dec freq lat auto r, compute_uvw light l HA dec freq lat auto = Ok r ->
  (exists bl, asks l auto bl) /\ (exists d, dec_means dec = Some d) /\ (forall x, freq <> FArr [] x).
Proof.
  intros light l HA dec freq lat auto r H. unfold compute_uvw in H. destruct (freq_array freq) as [[shape fs]|] eqn:F; [|discriminate]. cbn [bind] in H.
  destruct (pick_baselines l auto) as [rs|] eqn:P; [|discriminate]. cbn [bind] in H. rewrite ha_rad_ok in H. cbn [bind] in H.
  destruct (dec_means dec) as [d|] eqn:D; [|rewrite (dec_rad_hms _ D) in H; discriminate]. rewrite (dec_rad_ok _ _ D) in H. cbn [bind] in H.
  split; [|split; [eauto|intros x ->; discriminate]].
  apply (pick_inv l auto rs P). match type of H with bind ?c _ = _ => destruct c as [y|] eqn:C; [|discriminate] end. apply (all_ok _ _ _ C).
Qed.
Lemma track_inv : forall light l dec freq lat r, compute_uv_track light l dec freq lat = Ok r ->
  (exists bl, asks l false bl) /\ (exists d, track_means dec = Some d).
Proof.
  intros light l dec freq lat r H. unfold compute_uv_track in H.
  destruct (pick_baselines l false) as [rs|] eqn:P; [|discriminate]. cbn [bind] in H.
  destruct (track_means dec) as [d|] eqn:D; [|rewrite (track_dec_err _ D) in H; discriminate]. rewrite (track_dec_ok _ _ D) in H. cbn [bind] in H.
  split; [|eauto]. apply (pick_inv l false rs P). apply (all_ok _ _ _ H).
Qed.
