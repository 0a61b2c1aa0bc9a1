(** Theorems about the configuration container. *)
From Coq Require Import List ZArith Bool Lia QArith.
From Verif Require Import M_Str M_Config S_Config P_Str P_Config.
Import ListNotations.
Open Scope Z_scope.

(** A container as it is after loading: nothing pending. *)
Definition fresh (c : cfg) : Prop := pend c = [] /\ pch c = vch c.
Lemma fresh_flags : forall c, fresh c -> flags c.
Proof. intros c [P E]. split; [rewrite P; constructor|]. unfold due. rewrite P, E. intuition congruence. Qed.

(** After any session of programs (set, failed set, nested set_temp, exceptions), saves and writes of other
    processes, the pending changes are exactly the parameters whose value differs from the one at the last save (or
    when loaded), and the container wants to be saved iff there are any or the version changed.  The programs may
    not set() a parameter within a set_temp() block of the same parameter. *)
Lemma C36_pending_partial_proof : forall es c d, fresh c -> Forall clean_event es ->
  let s := history es (mkS c d (current c)) in
  pending_exactly (s_base s) (s_cfg s) /\ (pch (s_cfg s) = true <-> due (s_cfg s)).
Proof.
  intros es c d F C. cbn zeta.
  assert (G : forall es s, Forall clean_event es -> flags (s_cfg s) -> (forall n, tracked (s_base s) (s_cfg s) n) ->
    flags (s_cfg (history es s)) /\ forall n, tracked (s_base (history es s)) (s_cfg (history es s)) n).
  { clear. induction es as [|e es IH]; intros s C F T; [cbn; auto|]. cbn [history fold_left]. inversion C; subst. apply IH; auto.
    - destruct e as [p|ro now|f]; cbn [happen].
      + cbn. apply exec_flags. auto.
      + destruct (save ro now (s_cfg s) (s_disk s)) as [c' d'] eqn:S. cbn. eapply save_flags; eauto.
      + auto.
    - destruct e as [p|ro now|f]; cbn [happen].
      + cbn [s_cfg s_base]. intro n. apply (exec_tracks p [] (s_base s) (s_cfg s)); auto.
      + destruct (save ro now (s_cfg s) (s_disk s)) as [c' d'] eqn:S. cbn [s_cfg s_base]. intro n. destruct ro.
        * unfold save in S. inversion S; subst. auto.
        * assert (E : current (s_cfg s) n = current c' n) by (unfold current; rewrite (save_params _ _ _ _ _ _ S); auto).
          pose proof (tracked_self c' n (save_clears _ _ _ _ _ F S)) as K. unfold tracked in *. rewrite E. exact K.
      + cbn [s_cfg s_base]. auto. }
  destruct (G es (mkS c d (current c)) C (fresh_flags c F)) as [A B].
  { intro n. cbn [s_cfg s_base]. apply tracked_self. apply F. }
  split; [apply tracked_pending; auto|apply A].
Qed.

(** set(): an unknown name gives ValueError, another type than before gives TypeError unless the parameter is
    optional, and both change nothing; otherwise the parameter has the new value and the others are as before. *)
Lemma C36_set_proof : forall n v c,
  (current c n = None -> set n v c = (Some ValueError, c)) /\
  (forall p, dget n (params c) = Some p -> same_type v (p_value p) = false -> p_opt p = false -> set n v c = (Some TypeError, c)) /\
  (forall p, dget n (params c) = Some p -> same_type v (p_value p) = true \/ p_opt p = true ->
     exists c', set n v c = (None, c') /\ current c' n = Some v /\ (forall m, m <> n -> current c' m = current c m) /\ vch c' = vch c /\ loaded c' = loaded c).
Proof.
  intros n v c. unfold set. split; [|split].
  - unfold current. destruct (dget n (params c)); [discriminate|auto].
  - intros p G T O. rewrite G, T, O. auto.
  - intros p G H. rewrite G. assert (E : negb (same_type v (p_value p)) && negb (p_opt p) = false) by (destruct H as [-> | ->]; cbn; auto using andb_false_r). rewrite E.
    assert (K : forall pe a, current (mkC (dput n (set_value v p) (params c)) pe a (vch c) (loaded c)) n = Some v /\
      forall m, m <> n -> current (mkC (dput n (set_value v p) (params c)) pe a (vch c) (loaded c)) m = current c m).
    { intros pe a. split; [rewrite current_put, str_eqb_refl; auto|]. intros m M. rewrite current_put. destruct (str_eqb_spec n m); [congruence|auto]. }
    destruct (py_eq v (p_value p)); [|destruct (py_eq v _)]; (eexists; split; [reflexivity|]); split; try apply K; (split; [apply K|]); auto.
Qed.

(** set_temp(): whatever the block does, and however it ends, afterwards the parameter has the value it had before;
    every other parameter is as the block left it.  Inside the block the parameter has the temporary value. *)
Lemma C36_temp_restores_proof : forall n v p c, exists o c1,
  enter n v c = (o, c1) /\
  match o with
  | inl e => exec (Temp n v p) c = (Some e, c) /\ (e = ValueError \/ e = TypeError)
  | inr old => current c n = Some old /\ current c1 n = Some v /\ (forall m, m <> n -> current c1 m = current c m) /\ pend c1 = pend c /\ pch c1 = pch c /\
      let c' := snd (exec (Temp n v p) c) in
      current c' n = current c n /\ (forall m, m <> n -> current c' m = current (snd (exec p c1)) m) /\
      (fst (exec p c1) <> Some KeyError -> fst (exec (Temp n v p) c) = fst (exec p c1))
  end.
Proof.
  intros n v p c.
  assert (X : exec (Temp n v p) c = match enter n v c with
    | (inl e, c1) => (Some e, c1)
    | (inr old, c1) => let (o, c2) := exec p c1 in ((match o with Some KeyError => Some ValueError | _ => o end), leave n old c2) end) by reflexivity.
  rewrite X; clear X. unfold enter. destruct (dget n (params c)) as [q|] eqn:G; [|eexists; eexists; split; [reflexivity|cbn; auto]].
  destruct (negb (same_type v (p_value q)) && negb (p_opt q)) eqn:T; [eexists; eexists; split; [reflexivity|cbn; auto]|].
  eexists; eexists; split; [reflexivity|]. cbn beta iota.
  set (c1 := mkC (dput n (set_value v q) (params c)) (pend c) (pch c) (vch c) (loaded c)).
  assert (C0 : current c n = Some (p_value q)) by (unfold current; rewrite G; auto).
  assert (KN : forall p c m, dget m (params (snd (exec p c))) = None <-> dget m (params c) = None).
  { clear. induction p as [|e|n v|p IHp q IHq|p IHp|n v p IHp]; intros c m; cbn [exec]; try (cbn; tauto).
    - destruct (set n v c) as [o c'] eqn:S. cbn. eapply set_keeps_names; eauto.
    - specialize (IHp c m). destruct (exec p c) as [[e|] c1]; cbn in *; auto. rewrite IHq. auto.
    - cbn [snd]. auto.
    - unfold enter. destruct (dget n (params c)) as [q|] eqn:G; [|cbn; tauto]. destruct (negb _ && negb _); [cbn; tauto|].
      specialize (IHp (mkC (dput n (set_value v q) (params c)) (pend c) (pch c) (vch c) (loaded c)) m). destruct (exec p _) as [o c2]. cbn [snd] in *. cbn [params] in IHp. rewrite dget_put in IHp.
      unfold leave. destruct (dget n (params c2)) as [q2|] eqn:G2.
      + cbn [params]. rewrite dget_put. destruct (str_eqb_spec n m) as [<-|]; [rewrite G; split; discriminate|auto].
      + rewrite IHp. destruct (str_eqb_spec n m) as [<-|]; [rewrite G; split; discriminate|tauto]. }
  specialize (KN p c1 n). destruct (exec p c1) as [o c2]. cbn [snd fst] in *. split; auto.
  split; [unfold c1; rewrite current_put, str_eqb_refl; auto|].
  split; [intros m M; unfold c1; rewrite current_put; destruct (str_eqb_spec n m); [congruence|auto]|]. split; [auto|]. split; [auto|].
  assert (G2 : dget n (params c2) <> None). { intro X. apply KN in X. unfold c1 in X. cbn [params] in X. rewrite dget_put, str_eqb_refl in X. discriminate. }
  unfold leave. destruct (dget n (params c2)) as [q2|]; [|congruence]. split; [rewrite current_put, str_eqb_refl; auto|].
  split; [intros m M; rewrite current_put; destruct (str_eqb_spec n m); [congruence|auto]|].
  intro NK. destruct o as [[]|]; auto. congruence.
Qed.

(** When the file is written.  In a state a session can reach, a save writes iff the configuration is not read-only
    and either the version is new, or there are pending changes and the file has not changed since it was loaded; it
    writes all current values, and afterwards nothing is pending.  When nothing is written the file stays as it is. *)
Lemma C36_save_proof : forall ro now c d c' d', pch c = true <-> due c -> save ro now c d = (c', d') ->
  let moved := exists m t, d = Some (m, t) /\ loaded c < m in
  let writes := ro = false /\ (vch c = true \/ pend c <> [] /\ ~ moved) in
  (writes -> d' = Some (now, values c) /\ pend c' = [] /\ pch c' = false /\ vch c' = false) /\
  (~ writes -> d' = d) /\ params c' = params c /\ (ro = false -> pend c' = []) /\ (ro = true -> c' = c).
Proof.
  intros ro now c d c' d' F H. cbn zeta. split; [|split; [|split; [eapply save_params; eauto|split]]].
  - intros [-> W]. unfold save in H.
    assert (P : pch c = true) by (apply F; unfold due; tauto).
    destruct d as [[m t]|].
    + destruct (0 <? Z.of_nat (length (pend c))) eqn:L; cbn [andb] in H.
      * destruct (Z.ltb_spec (loaded c) m).
        -- destruct (vch c) eqn:V; [|destruct W as [W|[_ W]]; [discriminate|exfalso; apply W; eauto]]. cbn in H. rewrite P in H. inversion H; subst. auto.
        -- rewrite P in H. inversion H; subst. auto.
      * rewrite P in H. inversion H; subst. auto.
    + rewrite P in H. inversion H; subst. auto.
  - intro W. unfold save in H. destruct ro; [inversion H; auto|].
    destruct d as [[m t]|].
    + destruct (0 <? Z.of_nat (length (pend c))) eqn:L; cbn [andb] in H.
      * destruct (Z.ltb_spec (loaded c) m).
        -- destruct (vch c) eqn:V; [exfalso; apply W; auto|]. cbn in H. inversion H; auto.
        -- exfalso. apply W. split; auto. right. split; [destruct (pend c); [discriminate|discriminate]|]. intros (m' & t' & E & X). inversion E; subst. lia.
      * destruct (pch c) eqn:P; [|inversion H; auto]. assert (D : due c) by (apply F; auto). exfalso. apply W. split; auto. destruct D as [D|D]; auto.
        destruct (pend c); [congruence|]. cbn [length] in L. apply Z.ltb_ge in L. lia.
    + destruct (pch c) eqn:P; [|inversion H; auto]. assert (D : due c) by (apply F; auto). exfalso. apply W. split; auto. destruct D as [D|D]; auto. right. split; auto. intros (m & t & E & _). discriminate.
  - intros ->. unfold save in H. destruct (match d with Some (m, _) => _ | None => false end); cbn [pch params loaded] in H.
    + destruct (if vch c then pch c else false); inversion H; subst; auto.
    + destruct (pch c) eqn:E; inversion H; subst; auto. destruct (pend c') eqn:L; auto. assert (false = true) by (apply F; left; rewrite L; discriminate). discriminate.
  - intros ->. unfold save in H. inversion H; auto.
Qed.

(** view(section).get(name) is the parameter of the section, else the parameter of that full name. *)
Lemma C36_view_get_proof : forall sec n c,
  sub_get sec n c = match current c (dotted sec n), current c n with Some v, _ => inr v | None, Some v => inr v | None, None => inl ValueError end.
Proof. intros sec n c. unfold sub_get, get, current. destruct (dget (dotted sec n) (params c)); cbn; auto. destruct (dget n (params c)); auto. Qed.

Definition nm (k : Z) : str := [97; 46; k].   (* "a.k" *)
Definition ex_cfg : cfg := mkC [(nm 120, mkP (VInt 20) None false); (nm 121, mkP VNone None true)] [] false false 5.
Definition ex_prog : prog := Seq (Set_ (nm 120) (VInt 30)) (Seq (Catch (Set_ (nm 120) (VStr []))) (Seq (Catch (Temp (nm 121) (VInt 1) (Seq (Set_ (nm 120) (VInt 31)) (Raise OSError)))) (Set_ (nm 121) (VStr [49])))).
Lemma C36_pending_example_proof : fresh ex_cfg /\ clean [] ex_prog /\
  pend (snd (exec ex_prog ex_cfg)) = [(nm 120, (VInt 20, VInt 31)); (nm 121, (VNone, VStr [49]))] /\
  pend (snd (exec (Seq ex_prog (Set_ (nm 120) (VInt 20))) ex_cfg)) = [(nm 121, (VNone, VStr [49]))].
Proof. split; [split; reflexivity|]. split; [cbn; unfold nm; intuition congruence|]. split; reflexivity. Qed.
Lemma C36_save_example_proof : snd (save false 9 (snd (exec ex_prog ex_cfg)) (Some (5, []))) = Some (9, [(nm 120, VInt 31); (nm 121, VStr [49])]) /\
  snd (save false 9 (snd (exec ex_prog ex_cfg)) (Some (7, []))) = Some (7, []).
Proof. split; reflexivity. Qed.

(** set() inside set_temp() of the same parameter: the change is undone on exit but stays on the list of pending changes. *)
Lemma C36_set_within_temp_refuted_proof : exists c p, fresh c /\
  let c' := snd (exec (Temp (nm 120) (VInt 30) p) c) in
  (forall n, current c' n = current c n) /\ pend c' = [(nm 120, (VInt 30, VInt 25))] /\ pch c' = true.
Proof.
  exists ex_cfg, (Set_ (nm 120) (VInt 25)). split; [split; reflexivity|]. cbn zeta. split; [|split; reflexivity].
  intro n. reflexivity.
Qed.
(** A KeyError raised by the block of a set_temp() leaves it as ValueError("Unknown parameter ..."). *)
Lemma C36_temp_keyerror_refuted_proof : exists c n v, fst (exec (Raise KeyError) c) = Some KeyError /\ fst (exec (Temp n v (Raise KeyError)) c) = Some ValueError.
Proof. exists ex_cfg, (nm 120), (VInt 1). split; reflexivity. Qed.
(** A second save of a session is always taken for a conflict: the time of the first one is not remembered. *)
Lemma C36_second_save_refuted_proof : forall now1 now2, 5 < now1 -> exists c1 d1 c2,
  save false now1 (snd (set (nm 120) (VInt 30) ex_cfg)) (Some (5, [])) = (c1, d1) /\ d1 = Some (now1, [(nm 120, VInt 30); (nm 121, VNone)]) /\
  save false now2 (snd (set (nm 120) (VInt 40) c1)) d1 = (c2, d1) /\ pend c2 = [] /\ pch c2 = false /\ current c2 (nm 120) = Some (VInt 40).
Proof.
  intros now1 now2 H. eexists. eexists. eexists. split; [reflexivity|]. split; [reflexivity|].
  split; [cbn; replace (5 <? now1) with true by (symmetry; apply Z.ltb_lt; lia); reflexivity|]. repeat split.
Qed.
(** With a new version the "abandoned" changes are written all the same, over what another process wrote. *)
Lemma C36_abandoned_written_refuted_proof : exists c, flags c /\ vch c = true /\ pend c <> [] /\
  snd (save false 9 c (Some (7, [(nm 120, VInt 99)]))) = Some (9, [(nm 120, VInt 30); (nm 121, VNone)]).
Proof.
  exists (snd (set (nm 120) (VInt 30) (mkC (params ex_cfg) [] true true 5))). split; [|split; [reflexivity|split; [discriminate|reflexivity]]].
  split; [cbn; constructor; [intros []|constructor]|]. unfold due. cbn. intuition discriminate.
Qed.
(** view(section).set(name) does not fall back to the full name as get does: it raises ValueError. *)
Lemma C36_view_set_refuted_proof : exists sec n v c, sub_get sec n c = inr v /\ sub_set sec n v c = (Some ValueError, c).
Proof. exists [98], (nm 120), (VInt 20), ex_cfg. split; reflexivity. Qed.
