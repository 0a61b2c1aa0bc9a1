(** Theorems about the registry of open files. *)
From Coq Require Import List ZArith Bool Lia Permutation.
From Verif Require Import M_Str M_Reg S_Reg P_Str P_Config.
Import ListNotations.
Open Scope Z_scope.

Lemma mem_spec : forall h s, reflect (In h s) (mem h s).
Proof.
  intros h s. unfold mem. destruct (existsb (Z.eqb h) s) eqn:E; constructor.
  - apply existsb_exists in E. destruct E as [x [I E]]. apply Z.eqb_eq in E. subst. auto.
  - intro I. assert (existsb (Z.eqb h) s = true) by (apply existsb_exists; exists h; rewrite Z.eqb_refl; auto). congruence.
Qed.
Lemma sdel_in : forall h x s, In x (sdel h s) <-> In x s /\ x <> h.
Proof. intros h x s. unfold sdel. rewrite filter_In. destruct (Z.eqb_spec x h); cbn; intuition congruence. Qed.
Lemma sdel_nodup : forall h s, NoDup s -> NoDup (sdel h s).
Proof. intros. apply NoDup_filter. auto. Qed.
Lemma sadd_in : forall h x s, In x (sadd h s) <-> x = h \/ In x s.
Proof. intros h x s. unfold sadd. destruct (mem_spec h s); cbn; intuition congruence. Qed.
Lemma sadd_nodup : forall h s, NoDup s -> NoDup (sadd h s).
Proof. intros h s N. unfold sadd. destruct (mem_spec h s); [auto|constructor; auto]. Qed.

(** The registry, as sets by name. *)
Definition under (n : str) (r : registry) : list Z := match dget n (names r) with Some s => s | None => [] end.
Record good (o : list (Z * str)) (made : list (Z * str)) (p : proc) : Prop := {
  g_objs : objs p = made;
  g_made : NoDup (map fst made);
  g_sub : incl o made;
  g_nodup : NoDup (map fst o);
  g_hand : NoDup (handlers (reg p));
  g_in : forall h, In h (handlers (reg p)) <-> In h (map fst o);
  g_open : forall h, In h (opened p) <-> In h (map fst o);
  g_keys : NoDup (filenames (reg p));
  g_under : forall h n, In h (under n (reg p)) <-> In (h, n) o }.
Lemma look_spec : forall n d, NoDup (map fst d) -> let '(s, d') := look n d in
  s = match dget n d with Some s => s | None => [] end /\ NoDup (map fst d') /\ dget n d' = Some s /\ (forall m, m <> n -> dget m d' = dget m d) /\ (forall m, In m (map fst d') <-> m = n \/ In m (map fst d)).
Proof.
  intros n d N. unfold look. destruct (dget n d) as [s|] eqn:E.
  - repeat split; auto. intros [-> |]; auto. apply dget_in. congruence.
  - split; [auto|]. split; [apply put_nodup; auto|]. split; [rewrite dget_put, str_eqb_refl; auto|]. split; [|intro m; apply put_keys]. intros m M. rewrite dget_put. destruct (str_eqb_spec n m); congruence.
Qed.
Lemma name_of_made : forall h n p, NoDup (map fst (objs p)) -> In (h, n) (objs p) -> name_of h p = n.
Proof.
  intros h n p N I. unfold name_of. induction (objs p) as [|[a b] l IH]; [contradiction|]. cbn in *. inversion N; subst. destruct (Z.eqb_spec a h).
  - destruct I as [I|I]; [congruence|]. exfalso. apply H1. subst a. apply in_map_iff. exists (h, n). auto.
  - destruct I as [I|I]; [congruence|]. auto.
Qed.
Definition drop (h : Z) (o : list (Z * str)) : list (Z * str) := filter (fun x => negb (fst x =? h)) o.
Lemma drop_in : forall h a n o, In (a, n) (drop h o) <-> In (a, n) o /\ a <> h.
Proof. intros. unfold drop. rewrite filter_In. cbn. destruct (Z.eqb_spec a h); cbn; intuition congruence. Qed.
Lemma drop_fst : forall h a o, In a (map fst (drop h o)) <-> In a (map fst o) /\ a <> h.
Proof.
  intros h a o. rewrite !in_map_iff. split.
  - intros [[x n] [E I]]. cbn in E. subst. apply drop_in in I. destruct I. split; auto. exists (a, n). auto.
  - intros [[[x n] [E I]] NE]. cbn in E. subst. exists (a, n). split; auto. apply drop_in. auto.
Qed.
Lemma drop_nodup : forall h o, NoDup (map fst o) -> NoDup (map fst (drop h o)).
Proof.
  intros h. induction o as [|[a n] o IH]; cbn; intro N; [constructor|]. inversion N; subst. destruct (Z.eqb_spec a h); cbn; [auto|]. constructor; auto. intro I. apply drop_fst in I. tauto.
Qed.
Lemma drop_absent : forall h o, ~ In h (map fst o) -> drop h o = o.
Proof.
  intros h. induction o as [|[a n] o IH]; intro N; [auto|]. cbn in *. destruct (Z.eqb_spec a h); cbn; [tauto|]. f_equal. apply IH. tauto.
Qed.
Lemma fst_unique : forall (o : list (Z * str)) h a b, NoDup (map fst o) -> In (h, a) o -> In (h, b) o -> a = b.
Proof.
  induction o as [|[x y] o IH]; intros h a b N A B; [contradiction|]. cbn in N. inversion N; subst. destruct A as [A|A], B as [B|B]; try congruence; eauto.
  - injection A as -> ->. exfalso. apply H1. apply in_map_iff. exists (h, b). auto.
  - injection B as -> ->. exfalso. apply H1. apply in_map_iff. exists (h, a). auto.
Qed.

Lemma create_good : forall o made p h n ok, good o made p -> ~ In h (map fst made) ->
  good ((h, n) :: o) ((h, n) :: made) (snd (create h n ok p)) /\
  (forall m, In m (filenames (reg (snd (create h n ok p)))) <-> m = n \/ In m (filenames (reg p))) /\ closes (snd (create h n ok p)) = closes p.
Proof.
  intros o made p h n ok G N. unfold create, add. cbn [snd]. destruct G as [GO GM GS GN GH GI GP GK GU].
  assert (NO : ~ In h (map fst o)) by (intro I; apply N; apply in_map_iff in I; destruct I as [x [E I]]; apply in_map_iff; exists x; auto).
  pose proof (look_spec n (names (reg p)) GK) as LS. destruct (look n (names (reg p))) as [s d] eqn:L. destruct LS as [S [D [DN [DO DK]]]]. cbn [reg opened objs closes]. split; [|split; [|reflexivity]].
  - constructor; cbn [reg opened objs handlers names filenames].
    + rewrite GO. reflexivity.
    + cbn. constructor; auto.
    + intros x [I|I]; [left; auto|right; auto].
    + cbn. constructor; auto.
    + apply sadd_nodup. auto.
    + intro x. rewrite sadd_in, GI. cbn. intuition.
    + intro x. rewrite sadd_in, GP. cbn. intuition.
    + apply put_nodup. auto.
    + intros x m. unfold under. cbn [names]. rewrite dget_put. specialize (GU x m). unfold under in GU. destruct (str_eqb_spec n m).
      * subst m. rewrite sadd_in. rewrite <- S in GU. rewrite GU. cbn. intuition congruence.
      * rewrite DO by congruence. rewrite GU. cbn. intuition congruence.
  - intro m. unfold filenames. cbn [names]. rewrite put_keys, DK. intuition.
Qed.
Lemma close_good : forall o made p h, good o made p -> In h (map fst made) ->
  good (drop h o) made (snd (close h p)) /\
  (In h (map fst o) -> fst (close h p) = None /\ closes (snd (close h p)) = h :: closes p /\
     exists n, In (h, n) o /\ forall m, In m (filenames (reg (snd (close h p)))) <-> In m (filenames (reg p)) /\ (m = n -> exists x, x <> h /\ In (x, n) o)) /\
  (~ In h (map fst o) -> fst (close h p) = Some KeyError /\ closes (snd (close h p)) = closes p /\
     exists n, In (h, n) made /\ forall m, In m (filenames (reg (snd (close h p)))) <-> m = n \/ In m (filenames (reg p))).
Proof.
  intros o made p h G I. destruct G as [GO GM GS GN GH GI GP GK GU]. apply in_map_iff in I. destruct I as [[h' n] [E I]]. cbn in E. subst h'.
  assert (NM : name_of h p = n) by (apply name_of_made; rewrite GO; auto). unfold close, remove. rewrite NM.
  pose proof (look_spec n (names (reg p)) GK) as LS. destruct (look n (names (reg p))) as [s d] eqn:L. destruct LS as [S [D [DN [DO DK]]]].
  assert (SU : forall x, In x s <-> In (x, n) o) by (intro x; rewrite <- GU; unfold under; rewrite S; reflexivity).
  assert (MP : mem h (opened p) = if mem h s then true else false).
  { destruct (mem_spec h (opened p)) as [P|P], (mem_spec h s) as [Q|Q]; auto.
    - exfalso. apply GP in P. apply in_map_iff in P. destruct P as [[a b] [E P]]. cbn in E. subst a. apply Q, SU. assert (b = n) by (apply (fst_unique made h b n GM); auto). congruence.
    - exfalso. apply P, GP. apply SU in Q. apply in_map_iff. exists (h, n). auto. }
  destruct (mem_spec h s) as [Q|Q]; cbn [negb].
  - assert (HO : In (h, n) o) by (apply SU; auto). assert (HF : In h (map fst o)) by (apply in_map_iff; exists (h, n); auto).
    destruct (mem_spec h (handlers (reg p))) as [HH|HH]; cbn [negb]; [|exfalso; apply HH, GI; auto]. cbn [fst snd reg opened objs closes]. rewrite MP.
    set (d' := match sdel h s with [] => ddel n d | _ => dput n (sdel h s) d end).
    assert (DG : forall m, dget m d' = if str_eqb n m then match sdel h s with [] => None | z => Some z end else dget m (names (reg p))).
    { intro m. subst d'. destruct (sdel h s) as [|z zs] eqn:SD.
      - rewrite dget_del by auto. destruct (str_eqb_spec n m); [auto|]. apply DO. congruence.
      - rewrite dget_put. destruct (str_eqb_spec n m); [auto|]. apply DO. congruence. }
    split; [|split; [|intro C; contradiction]].
    + constructor; cbn [reg opened objs handlers names]; auto.
      * intros x X. apply GS. unfold drop in X. apply filter_In in X. tauto.
      * apply drop_nodup. auto.
      * apply sdel_nodup. auto.
      * intro x. rewrite sdel_in, GI, drop_fst. tauto.
      * intro x. rewrite sdel_in, GP, drop_fst. tauto.
      * unfold filenames. cbn [names]. subst d'. destruct (sdel h s); [apply del_nodup; auto|apply put_nodup; auto].
      * intros x m. rewrite drop_in, <- GU. unfold under. cbn [names]. rewrite DG. destruct (str_eqb_spec n m).
        -- subst m. rewrite <- S. rewrite <- sdel_in. destruct (sdel h s); [cbn; tauto|tauto].
        -- split; [intro X; split; auto; intros ->|tauto]. assert (In (h, m) o) by (apply GU; exact X). apply n0. apply (fst_unique o h n m GN); auto.
    + intros _. split; [auto|]. split; [auto|]. exists n. split; [auto|]. intro m. unfold filenames. cbn [names]. rewrite <- !dget_in, DG. destruct (str_eqb_spec n m).
      * subst m. assert (K : In n (map fst (names (reg p)))). { apply dget_in. intro Z. unfold look in L. rewrite Z in L. injection L as <- _. contradiction. }
        rewrite dget_in. destruct (sdel h s) as [|z zs] eqn:SD.
        -- split; [congruence|]. intros [_ X]. destruct (X eq_refl) as [x [X1 X2]]. apply SU in X2. assert (In x (sdel h s)) by (apply sdel_in; auto). rewrite SD in H. contradiction.
        -- split; [|discriminate]. intros _. split; auto. intros _. exists z. assert (In z (sdel h s)) by (rewrite SD; left; auto). apply sdel_in in H. split; [tauto|]. apply SU. tauto.
      * split; [intro X; split; auto; congruence|tauto].
  - assert (HO : ~ In h (map fst o)). { intro X. apply in_map_iff in X. destruct X as [[a b] [E X]]. cbn in E. subst a. apply Q, SU. assert (b = n) by (apply (fst_unique made h b n GM); auto). congruence. }
    cbn [fst snd reg opened objs closes]. rewrite MP. split; [|split; [intro C; contradiction|]].
    + change (filter (fun x => negb (fst x =? h)) o) with (drop h o). rewrite drop_absent by auto. constructor; cbn [reg opened objs handlers names]; auto.
      * intro x. rewrite sdel_in, GP. split; [tauto|]. intro X. split; auto. congruence.
      * intros x m. rewrite <- GU. unfold under. cbn [names]. destruct (str_eqb_spec n m); [subst m; rewrite DN; rewrite S; tauto|rewrite DO by congruence; tauto].
    + intros _. split; [auto|]. split; [auto|]. exists n. split; [auto|]. intro m. unfold filenames. cbn [names]. apply DK.
Qed.

Lemma close_all_good : forall l o made p, good o made p -> Permutation l (map fst o) ->
  good [] made (snd (close_all l p)) /\ fst (close_all l p) = None /\ closes (snd (close_all l p)) = rev l ++ closes p /\
  (forall m, In m (filenames (reg (snd (close_all l p)))) -> In m (filenames (reg p))) /\
  ((forall n, In n (filenames (reg p)) -> In n (map snd o)) -> filenames (reg (snd (close_all l p))) = []).
Proof.
  induction l as [|h l IH]; intros o made p G P.
  - assert (o = []) by (destruct o; [auto|apply Permutation_nil in P; discriminate]). subst o. cbn. repeat split; auto; try apply G. intro H. destruct (filenames (reg p)) as [|x xs]; [auto|]. exfalso. apply (H x). left. auto.
  - assert (HO : In h (map fst o)) by (apply (Permutation_in _ P); left; auto). assert (HM : In h (map fst made)) by (apply in_map_iff in HO; destruct HO as [x [E I]]; apply in_map_iff; exists x; split; auto; apply (g_sub _ _ _ G); auto).
    destruct (close_good o made p h G HM) as [G' [C _]]. destruct (C HO) as [E1 [E2 [n [HN HK]]]]. cbn [close_all]. destruct (close h p) as [e q] eqn:CE. cbn [fst snd] in *. subst e.
    assert (ND : NoDup (map fst o)) by apply G.
    assert (P' : Permutation l (map fst (drop h o))).
    { assert (NL : NoDup (h :: l)) by (eapply Permutation_NoDup; [apply Permutation_sym, P|auto]). inversion NL; subst. apply NoDup_Permutation; auto.
      - apply drop_nodup. auto.
      - intro x. rewrite drop_fst. split.
        + intro X. split; [apply (Permutation_in _ P); right; auto|congruence].
        + intros [X1 X2]. apply (Permutation_in _ (Permutation_sym P)) in X1. destruct X1; [congruence|auto]. }
    destruct (IH _ _ _ G' P') as [A [B [C1 [D F]]]]. split; [auto|]. split; [auto|]. split; [rewrite C1, E2; cbn [rev]; rewrite <- app_assoc; reflexivity|]. split.
    + intros m M. apply D, HK in M. tauto.
    + intro H. apply F. intros m M. apply HK in M. destruct M as [M1 M2]. apply H in M1. apply in_map_iff in M1. destruct M1 as [[x y] [E X]]. cbn in E. subst y.
      destruct (Z.eq_dec x h).
      * subst x. assert (m = n) by (apply (fst_unique o h m n ND); auto). destruct (M2 H0) as [y [Y1 Y2]]. apply in_map_iff. exists (y, m). split; auto. apply drop_in. subst. auto.
      * apply in_map_iff. exists (x, m). split; auto. apply drop_in. auto.
Qed.
Lemma start_good : good [] [] start.
Proof. constructor; cbn; try constructor; try tauto. intros x []. Qed.
Lemma good_lists : forall o made p, good o made p -> lists_exactly o (reg p).
Proof.
  intros o made p G. split; [apply G|]. split; [apply G|]. split; [apply G|]. intros h n. rewrite <- (g_under _ _ _ G). unfold under. split.
  - destruct (dget n (names (reg p))) as [s|] eqn:E; [|contradiction]. intro I. exists s. split; auto. apply dget_some_in. auto.
  - intros [s [I J]]. rewrite (in_dget n s _ (g_keys _ _ _ G) I). auto.
Qed.
(** The general step over a history. *)
Lemma run_good : forall l o made p, good o made p -> possible l o (map fst made) ->
  exists made', good (open_after l o) made' (snd (run l p)).
Proof.
  induction l as [|e l IH]; intros o made p G P; [exists made; exact G|]. cbn [run open_after]. destruct e as [h n ok|h|k]; cbn [possible happens] in *.
  - destruct P as [P Q]. destruct (create_good o made p h n ok G P) as [G' _]. destruct (create h n ok p) as [e q]. cbn [snd] in *. destruct (IH _ _ _ G' Q) as [m M]. destruct (run l q). exists m. exact M.
  - destruct P as [P Q]. destruct (close_good o made p h G P) as [G' _]. destruct (close h p) as [e q]. cbn [snd] in *. destruct (IH _ _ _ G' Q) as [m M]. destruct (run l q). exists m. exact M.
  - destruct P as [P Q]. destruct (close_all_good k o made p G P) as [G' _]. destruct (close_all k p) as [e q]. cbn [snd] in *. destruct (IH _ _ _ G' Q) as [m M]. destruct (run l q). exists m. exact M.
Qed.

(** After any history of opening (also of files that turn out not to be data), closing (also again) and close_all the
    handlers of the registry are exactly the objects whose file is open, each once, and each is listed under the name
    of its file and no other. *)
Lemma C44_handlers_proof : forall l, possible l [] [] ->
  let p := snd (run l start) in
  lists_exactly (open_after l []) (reg p) /\ (forall h, In h (opened p) <-> In h (handlers (reg p))).
Proof.
  intros l P. cbn zeta. destruct (run_good l [] [] start start_good P) as [made G]. split; [eapply good_lists; eauto|]. intro h. rewrite (g_in _ _ _ G), (g_open _ _ _ G). tauto.
Qed.
(** If nothing is closed twice, no close raises and the file names are exactly those of the open objects. *)
Definition raised (e : event) (x : option exn) : Prop := match e with Create _ _ ok => x = if ok then None else Some RuntimeError | _ => x = None end.
Lemma C44_filenames_proof : forall l, possible l [] [] -> once l [] ->
  names_exactly (open_after l []) (reg (snd (run l start))) /\ Forall2 raised l (fst (run l start)).
Proof.
  intros l P O.
  assert (G : forall l o made p, good o made p -> names_exactly o (reg p) -> possible l o (map fst made) -> once l o -> names_exactly (open_after l o) (reg (snd (run l p))) /\ Forall2 raised l (fst (run l p))).
  { clear. induction l as [|e l IH]; intros o made p G N P O; [cbn; auto|]. cbn [run open_after]. destruct e as [h n ok|h|k]; cbn [possible happens once] in *.
    - destruct P as [P Q]. destruct (create_good o made p h n ok G P) as [G' [K _]]. assert (R : fst (create h n ok p) = if ok then None else Some RuntimeError) by reflexivity. destruct (create h n ok p) as [e q]. cbn [fst snd] in *.
      destruct (IH _ _ _ G') as [A B]; auto.
      + intro m. rewrite K, (N m). cbn. intuition.
      + destruct (run l q). cbn [fst snd] in *. split; auto.
    - destruct P as [P Q], O as [O1 O2]. destruct (close_good o made p h G P) as [G' [C _]]. destruct (C O1) as [E1 [E2 [n [HN K]]]]. destruct (close h p) as [e q]. cbn [fst snd] in *.
      destruct (IH _ _ _ G') as [A B]; auto.
      + intro m. rewrite K, (N m), !in_map_iff. split.
        * intros [[[x y] [E X]] M]. cbn in E. subst y. destruct (Z.eq_dec x h).
          -- subst x. assert (m = n) by (apply (fst_unique o h m n); [apply G|auto|auto]). destruct (M H) as [y [Y1 Y2]]. exists (y, m). split; auto. apply drop_in. subst. auto.
          -- exists (x, m). split; auto. apply drop_in. auto.
        * intros [[x y] [E X]]. cbn in E. subst y. apply drop_in in X. destruct X as [X1 X2]. split; [exists (x, m); auto|]. intros ->. exists x. auto.
      + destruct (run l q). cbn [fst snd] in *. split; auto.
    - destruct P as [P Q]. destruct (close_all_good k o made p G P) as [G' [E1 [_ [_ F]]]]. destruct (close_all k p) as [e q]. cbn [fst snd] in *.
      destruct (IH _ _ _ G') as [A B]; auto.
      + intro m. rewrite F; [cbn; tauto|]. intros x X. apply N. auto.
      + destruct (run l q). cbn [fst snd] in *. split; auto. }
  apply (G l [] [] start start_good); auto. intro n. cbn. tauto.
Qed.
(** close_all(), also at exit, closes every open object exactly once, in whatever order the set is gone through, and
    leaves none registered. *)
Lemma C44_close_all_proof : forall l order, possible l [] [] -> Permutation order (map fst (open_after l [])) ->
  let p := snd (run l start) in let q := snd (close_all order p) in
  fst (close_all order p) = None /\ handlers (reg q) = [] /\ opened q = [] /\ closes q = rev order ++ closes p /\ size (reg q) = 0 /\
  (once l [] -> filenames (reg q) = []).
Proof.
  intros l order P O. cbn zeta. destruct (run_good l [] [] start start_good P) as [made G]. destruct (close_all_good order _ made _ G O) as [A [B [C [D F]]]].
  assert (H0 : handlers (reg (snd (close_all order (snd (run l start))))) = []). { pose proof (g_in _ _ _ A) as H. destruct (handlers _) as [|x xs]; [auto|]. exfalso. apply (proj1 (H x)). left. auto. }
  assert (O0 : opened (snd (close_all order (snd (run l start)))) = []). { pose proof (g_open _ _ _ A) as H. destruct (opened _) as [|x xs]; [auto|]. exfalso. apply (proj1 (H x)). left. auto. }
  split; [auto|]. split; [auto|]. split; [auto|]. split; [auto|]. split; [unfold size; rewrite H0; reflexivity|]. intro U. apply F. intros n N. destruct (C44_filenames_proof l P U) as [X _]. apply X. auto.
Qed.
(** A second close() raises KeyError, and so does leaving a with block whose body has closed the file.  It also leaves
    the name in the registry: the registry then says a file is open that is not. *)
Lemma C44_second_close_refuted_proof :
  (forall h n, let p := snd (run [Create h n true; Close h] start) in
     fst (close h p) = Some KeyError /\ contains n (reg (snd (close h p))) = true /\ opened (snd (close h p)) = [] /\ handlers (reg (snd (close h p))) = []) /\
  (forall h n, fst (with_block h true (snd (create h n true start))) = Some KeyError) /\
  (forall h n, fst (with_block h false (snd (create h n true start))) = None).
Proof.
  assert (R : forall h n, remove h n (mkReg [(n, [h])] [h]) = (None, mkReg [] [])).
  { intros h n. unfold remove, look. cbn [names handlers dget]. rewrite str_eqb_refl. unfold mem, sdel. cbn. rewrite Z.eqb_refl. cbn. rewrite str_eqb_refl. reflexivity. }
  assert (C : forall h n, snd (create h n true start) = mkP (mkReg [(n, [h])] [h]) [(h, n)] [h] []).
  { intros h n. unfold create, add, start, look. cbn. rewrite str_eqb_refl. reflexivity. }
  assert (D : forall h n, close h (mkP (mkReg [(n, [h])] [h]) [(h, n)] [h] []) = (None, mkP (mkReg [] []) [(h, n)] [] [h])).
  { intros h n. unfold close, name_of. cbn [objs find fst]. rewrite Z.eqb_refl. cbn [reg]. rewrite R. cbn [opened closes]. unfold mem, sdel. cbn. rewrite Z.eqb_refl. reflexivity. }
  assert (E : forall h n, close h (mkP (mkReg [] []) [(h, n)] [] [h]) = (Some KeyError, mkP (mkReg [(n, [])] []) [(h, n)] [] [h])).
  { intros h n. unfold close, name_of. cbn [objs find fst]. rewrite Z.eqb_refl. reflexivity. }
  split; [|split]; intros h n.
  - cbn [run happens]. pose proof (C h n) as CH. destruct (create h n true start) as [e q]. cbn [snd] in CH. subst q. rewrite D. cbn [snd]. rewrite E. cbn [fst snd reg]. unfold contains. cbn. rewrite str_eqb_refl. auto.
  - unfold with_block. rewrite C, D, E. reflexivity.
  - unfold with_block. rewrite C, D. reflexivity.
Qed.
(** An object whose constructor fails stays registered, with its file open, until the end of the process. *)
Lemma C44_failed_open_refuted_proof : forall h n, exists p, create h n false start = (Some RuntimeError, p) /\ handlers (reg p) = [h] /\ opened p = [h] /\ filenames (reg p) = [n].
Proof. intros h n. unfold create, add, start, look. cbn. rewrite str_eqb_refl. eexists. split; [reflexivity|]. auto. Qed.
(** A history: two objects of the same file and one of another, one closed, close_all. *)
Lemma C44_history_example_proof : let l := [Create 1 [97] true; Create 2 [97] true; Create 3 [98] false; Close 1] in
  possible l [] [] /\ once l [] /\ reg (snd (run l start)) = mkReg [([97], [2]); ([98], [3])] [3; 2] /\
  Permutation [2; 3] (map fst (open_after l [])) /\ closes (snd (close_all [2; 3] (snd (run l start)))) = [3; 2; 1].
Proof.
  cbn zeta. split; [cbn; intuition congruence|]. split; [cbn; auto|]. split; [reflexivity|]. split; [|reflexivity]. cbn. apply perm_swap.
Qed.
