(** Lemmas about session definition files: from keywords and values to objects. *)
From Coq Require Import Ascii String.
From Coq Require Import List ZArith Bool Lia QArith Qround Qabs Lqa.
From Verif Require Import M_Str P_Str P_Bar M_Sdf S_Sdf P_Sdf.
Import ListNotations.
Open Scope Z_scope.
Ltac Zify.zify_post_hook ::= Z.div_mod_to_equations.

Ltac kw := repeat match goal with |- context[keyword_of (tx ?s)] => let w := eval vm_compute in (keyword_of (tx s)) in change (keyword_of (tx s)) with w end.
Ltac item := cbn [run_items l_key l_ids l_val L]; kw; cbn [apply]; unfold with_int, with_float, on_keep, on_ses, on_temp; rewrite ?parse_dec, ?fix_parse by lia.

(** *** Lists *)
Lemma set_nth_app : forall (A : Type) (a b : A) p l, set_nth (length p) a (p ++ b :: l) = p ++ a :: l.
Proof. induction p as [|x p IH]; intro l; cbn; f_equal; auto. Qed.
Lemma set_nth_length : forall (A : Type) n (a : A) l, length (set_nth n a l) = length l.
Proof. induction n as [|n IH]; intros a [|b l]; cbn; auto. Qed.
Lemma py_set_mid : forall (A : Type) (a b : A) p l, py_set (Z.of_nat (length p)) a (p ++ b :: l) = Some (p ++ a :: l).
Proof.
  intros A a b p l. unfold py_set, py_index. destruct (Z.ltb_spec (Z.of_nat (length p)) 0); [lia|]. rewrite app_length. cbn [length].
  replace ((0 <=? Z.of_nat (length p)) && (Z.of_nat (length p) <? Z.of_nat (length p + S (length l)))) with true by (symmetry; apply andb_true_iff; split; [apply Z.leb_le|apply Z.ltb_lt]; lia).
  rewrite Nat2Z.id, set_nth_app. reflexivity.
Qed.
Lemma py_get_mid : forall (A : Type) (b : A) p l, py_get (Z.of_nat (length p)) (p ++ b :: l) = Some b.
Proof.
  intros A b p l. unfold py_get, py_index. destruct (Z.ltb_spec (Z.of_nat (length p)) 0); [lia|]. rewrite app_length. cbn [length].
  replace ((0 <=? Z.of_nat (length p)) && (Z.of_nat (length p) <? Z.of_nat (length p + S (length l)))) with true by (symmetry; apply andb_true_iff; split; [apply Z.leb_le|apply Z.ltb_lt]; lia).
  rewrite Nat2Z.id, nth_error_app2, Nat.sub_diag by lia. reflexivity.
Qed.
Lemma py_set_out : forall (A : Type) (a : A) i l, Z.of_nat (length l) <= i -> py_set i a l = None.
Proof. intros A a i l H. unfold py_set, py_index. destruct (Z.ltb_spec i 0); [lia|]. destruct (Z.ltb_spec i (Z.of_nat (length l))); [lia|]. rewrite andb_false_r. auto. Qed.
Lemma py_get_out : forall (A : Type) i (l : list A), Z.of_nat (length l) <= i -> py_get i l = None.
Proof. intros A i l H. unfold py_get, py_index. destruct (Z.ltb_spec i 0); [lia|]. destruct (Z.ltb_spec i (Z.of_nat (length l))); [lia|]. rewrite andb_false_r. auto. Qed.

(** *** Settings by stand *)
Lemma put_setting_mid : forall v a p l, put_setting (Z.of_nat (length p) + 1) v (p ++ a :: l) = p ++ v :: l.
Proof. intros v a p l. unfold put_setting. destruct (Z.eqb_spec (Z.of_nat (length p) + 1) 0); [lia|]. replace (Z.of_nat (length p) + 1 - 1) with (Z.of_nat (length p)) by lia. rewrite py_set_mid. auto. Qed.
Lemma put_setting_out : forall i v l, Z.of_nat (length l) < i -> put_setting i v l = l.
Proof. intros i v l H. unfold put_setting. destruct (Z.eqb_spec i 0); [lia|]. rewrite py_set_out by lia. auto. Qed.
Definition put_all (xs : list (Z * Z)) (l : list Z) : list Z := fold_left (fun l x => if snd x =? -1 then l else put_setting (fst x) (snd x) l) xs l.
Lemma put_all_out : forall xs i l, Z.of_nat (length l) < i -> put_all (number i xs) l = l.
Proof. unfold put_all. induction xs as [|v xs IH]; intros i l H; cbn; auto. destruct (v =? -1); [|rewrite put_setting_out by auto]; apply IH; lia. Qed.
Lemma put_all_over : forall new old p, (length old <= length new)%nat -> put_all (number (Z.of_nat (length p) + 1) new) (p ++ old) = p ++ over old new.
Proof.
  induction new as [|v new IH]; intros old p H.
  - destruct old; [reflexivity|cbn in H; lia].
  - destruct old as [|a old].
    + rewrite put_all_out by (rewrite app_length; cbn [length]; lia). unfold over. reflexivity.
    + unfold put_all. cbn [number fold_left fst snd]. fold (put_all (number (Z.of_nat (length p) + 1 + 1) new)).
      assert (E : forall c, put_all (number (Z.of_nat (length p) + 1 + 1) new) (p ++ c :: old) = p ++ c :: over old new).
      { intro c. replace (Z.of_nat (length p) + 1 + 1) with (Z.of_nat (length (p ++ [c])) + 1) by (rewrite app_length; cbn [length]; lia).
        change (p ++ c :: old) with (p ++ [c] ++ old). rewrite app_assoc, IH by (cbn in H; lia). rewrite <- app_assoc. reflexivity. }
      unfold over. cbn [combine map fst snd]. fold (over old new). destruct (v =? -1).
      * apply E.
      * rewrite put_setting_mid. apply E.
Qed.
Lemma over_same : forall h old new, forallb (Z.eqb h) new = true -> (length old <= length new)%nat -> over old new = if h =? -1 then old else map (fun _ => h) old.
Proof.
  intros h old. induction old as [|a old IH]; intros new F H; [unfold over; cbn; destruct (h =? -1); auto|].
  destruct new as [|v new]; [cbn in H; lia|]. cbn in F. apply andb_true_iff in F. destruct F as [E F]. apply Z.eqb_eq in E. subst v.
  unfold over. cbn [combine map fst snd]. fold (over old new). rewrite IH by (auto; cbn in H; lia). destruct (h =? -1); auto.
Qed.

Section Setting.
  Variables (k : string) (get : keep -> list Z) (set : list Z -> keep -> keep).
  Hypothesis ap : forall i v st, 0 <= i -> apply (keyword_of (tx k)) (pad_ids [i]) (dec v) st = on_keep (fun x => set (put_setting i v (get x)) x) st.
  Hypothesis gs : forall l x, get (set l x) = l.
  Hypothesis ss : forall l m x, set l (set m x) = set l x.
  Hypothesis sg : forall x, set (get x) x = x.
  Lemma setting_run : forall l rest j t us, (NSTD <= length l)%nat -> length (get (t_keep t)) = NSTD ->
    run_items (setting_lines k l ++ rest) (mkSt j t us) = run_items rest (mkSt j (set_keep (set (over (get (t_keep t)) l) (t_keep t)) t) us).
  Proof.
    intros l rest j t us N G.
    assert (ID : forall t, set_keep (set (get (t_keep t)) (t_keep t)) t = t) by (intro t0; rewrite sg; destruct t0; reflexivity).
    unfold setting_lines. destruct l as [|h l]; [unfold NSTD in N; cbn in N; lia|]. remember (h :: l) as m. destruct (forallb (Z.eqb h) m) eqn:E.
    - rewrite (over_same h) by (auto; lia). destruct (h =? -1); [cbn; rewrite ID; auto|].
      cbn [app run_items L l_key l_ids l_val]. rewrite ap by lia. unfold on_keep, on_temp. cbn [q_proj q_temp q_steps]. unfold put_setting. cbn [Z.eqb]. reflexivity.
    - assert (P : forall xs t, Forall (fun x => 0 <= fst x) xs ->
        run_items (flat_map (fun x => if snd x =? -1 then [] else [L k [fst x] (dec (snd x))]) xs ++ rest) (mkSt j t us) =
        run_items rest (mkSt j (set_keep (set (put_all xs (get (t_keep t))) (t_keep t)) t) us)).
      { induction xs as [|[i v] xs IH]; intros t0 F; cbn [flat_map put_all fold_left app fst snd]; [rewrite ID; auto|]. inversion F; subst. cbn [fst] in *.
        destruct (v =? -1); [rewrite <- IH by auto; reflexivity|]. cbn [app run_items L l_key l_ids l_val]. rewrite ap by auto. unfold on_keep, on_temp. cbn [q_proj q_temp q_steps].
        rewrite IH by auto. cbn [t_keep set_keep]. rewrite gs, ss. reflexivity. }
      rewrite P.
      + f_equal. f_equal. f_equal. f_equal. apply (put_all_over m (get (t_keep t)) []). lia.
      + clear. assert (Q : forall l i, 0 <= i -> Forall (fun x : Z * Z => 0 <= fst x) (number i l)); [|apply Q; lia].
        induction l as [|a l IH]; intros i H; cbn; constructor; auto. apply IH. lia.
  Qed.
End Setting.

(** *** FEE settings *)
Lemma fee_mid1 : forall v a p l, put_fee (Z.of_nat (length p) + 1) 1 v (p ++ a :: l) = Some (p ++ (v, snd a) :: l).
Proof.
  intros v a p l. unfold put_fee. destruct (Z.eqb_spec (Z.of_nat (length p) + 1) 0); [lia|]. replace (Z.of_nat (length p) + 1 - 1) with (Z.of_nat (length p)) by lia.
  rewrite py_get_mid. change (set2 (1 - 1) v a) with (Some (v, snd a)). cbv iota. rewrite py_set_mid. auto.
Qed.
Lemma fee_mid2 : forall v a p l, put_fee (Z.of_nat (length p) + 1) 2 v (p ++ a :: l) = Some (p ++ (fst a, v) :: l).
Proof.
  intros v a p l. unfold put_fee. destruct (Z.eqb_spec (Z.of_nat (length p) + 1) 0); [lia|]. replace (Z.of_nat (length p) + 1 - 1) with (Z.of_nat (length p)) by lia.
  rewrite py_get_mid. change (set2 (2 - 1) v a) with (Some (fst a, v)). cbv iota. rewrite py_set_mid. auto.
Qed.
Lemma fee_out : forall i pol v l, Z.of_nat (length l) < i -> put_fee i pol v l = Some l.
Proof. intros i pol v l H. unfold put_fee. destruct (Z.eqb_spec i 0); [lia|]. rewrite py_get_out by lia. auto. Qed.
Lemma fee_all1 : forall v l, put_fee 0 1 v l = Some (map (fun f => (v, snd f)) l).
Proof. intros v l. unfold put_fee. cbn [Z.eqb]. induction l as [|a l IH]; auto. cbn [map all_some]. change (set2 (1 - 1) v a) with (Some (v, snd a)). cbv iota. rewrite IH. reflexivity. Qed.
Lemma fee_all2 : forall v l, put_fee 0 2 v l = Some (map (fun f => (fst f, v)) l).
Proof. intros v l. unfold put_fee. cbn [Z.eqb]. induction l as [|a l IH]; auto. cbn [map all_some]. change (set2 (2 - 1) v a) with (Some (fst a, v)). cbv iota. rewrite IH. reflexivity. Qed.
Definition pick (p v : Z) : Z := if v =? -1 then p else v.
Definition pick2 (old new : list (Z * Z)) : list (Z * Z) :=
  map (fun pv => (pick (fst (fst pv)) (fst (snd pv)), pick (snd (fst pv)) (snd (snd pv)))) (combine old new).
Lemma pick2_same : forall h old new, forallb (eqb2 h) new = true -> (length old <= length new)%nat -> fst h <> -1 -> snd h <> -1 -> pick2 old new = map (fun _ => h) old.
Proof.
  intros h old. induction old as [|a old IH]; intros new F H A B; [reflexivity|].
  destruct new as [|v new]; [cbn in H; lia|]. cbn in F. apply andb_true_iff in F. destruct F as [E F]. unfold eqb2 in E. apply andb_true_iff in E. rewrite !Z.eqb_eq in E. destruct E as [E1 E2].
  unfold pick2. cbn [combine map fst snd]. fold (pick2 old new). rewrite IH by (auto; cbn in H; lia). f_equal. rewrite <- E1, <- E2. unfold pick.
  destruct (Z.eqb_spec (fst h) (-1)); [congruence|]. destruct (Z.eqb_spec (snd h) (-1)); [congruence|]. destruct h; reflexivity.
Qed.
Lemma fee_run : forall l rest j t us, (NSTD <= length l)%nat -> length (k_fee (t_keep t)) = NSTD ->
  run_items (fee_lines l ++ rest) (mkSt j t us) = run_items rest (mkSt j (set_keep (keep_fee (over_fee (k_fee (t_keep t)) l) (t_keep t)) t) us).
Proof.
  intros l rest j t us N G.
  assert (ID : forall t, set_keep (keep_fee (k_fee (t_keep t)) (t_keep t)) t = t) by (intros []; destruct t_keep; reflexivity).
  unfold fee_lines, over_fee. destruct l as [|h l]; [unfold NSTD in N; cbn in N; lia|]. remember (h :: l) as m.
  change (forallb (fun f => (fst h =? fst f) && (snd h =? snd f)) m) with (forallb (eqb2 h) m). change (map _ (combine (k_fee (t_keep t)) m)) with (pick2 (k_fee (t_keep t)) m).
  destruct (forallb (eqb2 h) m) eqn:E; cbn [andb].
  - destruct (Z.eqb_spec (fst h) (-1)) as [A|A]; cbn [orb]; [cbn; rewrite ID; auto|]. destruct (Z.eqb_spec (snd h) (-1)) as [B|B]; [cbn; rewrite ID; auto|].
    cbn [app]. item. cbn [pad_ids app firstn nth]. rewrite fee_all1. cbn [q_proj q_temp q_steps]. item. cbn [pad_ids app firstn nth q_proj q_temp q_steps t_keep set_keep k_fee keep_fee]. rewrite fee_all2.
    cbn [q_proj q_temp q_steps]. f_equal. f_equal. rewrite (pick2_same h) by (auto; lia). rewrite map_map. cbn [fst snd]. destruct h. reflexivity.
  - assert (P : forall new old p t, (length old <= length new)%nat -> k_fee (t_keep t) = p ++ old ->
      run_items (flat_map (fun x => (if fst (snd x) =? -1 then [] else [L "OBS_FEE" [fst x; 1] (dec (fst (snd x)))]) ++
                                    (if snd (snd x) =? -1 then [] else [L "OBS_FEE" [fst x; 2] (dec (snd (snd x)))])) (number (Z.of_nat (length p) + 1) new) ++ rest) (mkSt j t us) =
      run_items rest (mkSt j (set_keep (keep_fee (p ++ pick2 old new) (t_keep t)) t) us)).
    { induction new as [|[v w] new IH]; intros old p t0 H K.
      - destruct old; [|cbn in H; lia]. cbn [number flat_map app]. unfold pick2. cbn. rewrite <- K, ID. auto.
      - cbn [number flat_map fst snd]. destruct old as [|a old].
        + rewrite app_nil_r in *.
          assert (S : forall rest' t1 i pol x, k_fee (t_keep t1) = p -> Z.of_nat (length p) < i -> run_items (L "OBS_FEE" [i; pol] (dec x) :: rest') (mkSt j t1 us) = run_items rest' (mkSt j t1 us)).
          { intros rest' t1 i pol x K1 I. item. cbn [pad_ids app firstn nth q_proj q_temp q_steps]. rewrite K1, fee_out by auto. rewrite <- K1. cbn [q_proj q_temp q_steps]. rewrite ID. auto. }
          rewrite <- app_assoc. set (R := flat_map _ _ ++ rest).
          assert (X : run_items ((if v =? -1 then [] else [L "OBS_FEE" [Z.of_nat (length p) + 1; 1] (dec v)]) ++ (if w =? -1 then [] else [L "OBS_FEE" [Z.of_nat (length p) + 1; 2] (dec w)]) ++ R) (mkSt j t0 us) = run_items R (mkSt j t0 us)).
          { destruct (v =? -1), (w =? -1); cbn [app]; rewrite ?S by (auto; lia); auto. }
          rewrite <- (app_assoc (if v =? -1 then _ else _)), X. unfold R. clear X R.
          assert (Y : forall new i t1, k_fee (t_keep t1) = p -> Z.of_nat (length p) < i -> run_items (flat_map (fun x : Z * (Z * Z) => (if fst (snd x) =? -1 then [] else [L "OBS_FEE" [fst x; 1] (dec (fst (snd x)))]) ++
                                    (if snd (snd x) =? -1 then [] else [L "OBS_FEE" [fst x; 2] (dec (snd (snd x)))])) (number i new) ++ rest) (mkSt j t1 us) = run_items rest (mkSt j t1 us)).
          { induction new0 as [|[c d] new0 IHn]; intros i t1 K1 I; auto. cbn [number flat_map fst snd]. rewrite <- !app_assoc.
            destruct (c =? -1), (d =? -1); cbn [app]; rewrite ?S by auto; apply IHn; auto; lia. }
          rewrite Y by (auto; lia). unfold pick2. cbn [combine map]. rewrite ?app_nil_r, <- K, ID. auto.
        + rewrite <- app_assoc. set (R := flat_map _ _ ++ rest).
          assert (X : run_items ((if v =? -1 then [] else [L "OBS_FEE" [Z.of_nat (length p) + 1; 1] (dec v)]) ++ (if w =? -1 then [] else [L "OBS_FEE" [Z.of_nat (length p) + 1; 2] (dec w)]) ++ R) (mkSt j t0 us) =
                      run_items R (mkSt j (set_keep (keep_fee (p ++ (pick (fst a) v, pick (snd a) w) :: old) (t_keep t0)) t0) us)).
          { unfold pick. assert (K2 : keep_fee (p ++ (fst a, snd a) :: old) (t_keep t0) = t_keep t0) by (rewrite <- surjective_pairing, <- K; destruct (t_keep t0); reflexivity).
            assert (K3 : set_keep (t_keep t0) t0 = t0) by (destruct t0; reflexivity).
            destruct (v =? -1), (w =? -1); cbn [app].
            - rewrite K2, K3. auto.
            - item. cbn [pad_ids app firstn nth q_proj q_temp q_steps]. rewrite K, fee_mid2. reflexivity.
            - item. cbn [pad_ids app firstn nth q_proj q_temp q_steps]. rewrite K, fee_mid1. reflexivity.
            - item. cbn [pad_ids app firstn nth q_proj q_temp q_steps]. rewrite K, fee_mid1. item. cbn [pad_ids app firstn nth q_proj q_temp q_steps t_keep set_keep k_fee keep_fee]. rewrite fee_mid2. reflexivity. }
          rewrite <- (app_assoc (if v =? -1 then _ else _)), X. unfold R. clear X R.
          set (a' := (pick (fst a) v, pick (snd a) w)). replace (Z.of_nat (length p) + 1 + 1) with (Z.of_nat (length (p ++ [a'])) + 1) by (rewrite app_length; cbn [length]; lia).
          rewrite (IH old (p ++ [a'])); [|cbn in H; lia|cbn; rewrite <- app_assoc; reflexivity]. cbn [t_keep set_keep]. f_equal. f_equal. unfold set_keep, keep_fee. cbn. f_equal. f_equal. rewrite <- app_assoc. reflexivity. }
    rewrite (P m (k_fee (t_keep t)) []); [reflexivity|lia|reflexivity].
Qed.

(** *** Steps *)
Lemma on_last_app : forall f us u, on_last f (us ++ [u]) = match f u with inl e => inl e | inr v => inr (us ++ [v]) end.
Proof.
  induction us as [|a us IH]; intro u; [cbn; destruct (f u); auto|]. specialize (IH u). cbn [app]. destruct (us ++ [u]) eqn:E; [destruct us; discriminate|].
  cbn [on_last] in *. rewrite IH. destruct (f u); auto.
Qed.
Lemma on_step_last : forall f j t us u i, u_id u = i -> on_step i f (mkSt j t (us ++ [u])) = match f u with inl e => inl e | inr v => inr (mkSt j t (us ++ [v])) end.
Proof.
  intros f j t us u i H. unfold on_step, touch. cbn [q_proj q_temp q_steps]. rewrite rev_app_distr. cbn [rev app]. rewrite H, Z.eqb_refl, on_last_app. destruct (f u); auto.
Qed.
Definition base (i : Z) (us : list btemp) : btemp :=
  match rev us with [] => mkBt i 0 0 0 0 0 false None | u :: _ => mkBt i (u_c1 u) (u_c2 u) (u_dur u) (u_f1 u) (u_f2 u) (u_hdr u) (u_spec u) end.
Lemma on_step_new : forall f j t us i, match rev us with [] => True | u :: _ => u_id u <> i end ->
  on_step i f (mkSt j t us) = match f (base i us) with inl e => inl e | inr v => inr (mkSt j t (us ++ [v])) end.
Proof.
  intros f j t us i H. unfold on_step, touch, base. cbn [q_proj q_temp q_steps]. destruct (rev us) as [|u r] eqn:E.
  - assert (us = []) by (rewrite <- (rev_involutive us), E; auto). subst. cbn. destruct (f _); auto.
  - destruct (Z.eqb_spec (u_id u) i); [congruence|]. rewrite on_last_app. destruct (f _); auto.
Qed.
Lemma delays_run : forall new old p g rest j t us u, length old = length new -> u_spec u = Some (p ++ old, g) ->
  run_items (map (fun x => L "OBS_BEAM_DELAY" [u_id u; fst x] (dec (snd x))) (number (Z.of_nat (length p) + 1) new) ++ rest) (mkSt j t (us ++ [u])) =
  run_items rest (mkSt j t (us ++ [put_spec (p ++ new, g) u])).
Proof.
  induction new as [|v new IH]; intros old p g rest j t us u H K.
  - destruct old; [|discriminate]. cbn [number map app]. unfold put_spec. rewrite <- K. destruct u. auto.
  - destruct old as [|a old]; [discriminate|]. cbn [number map app fst snd]. item. cbn [pad_ids app firstn nth]. rewrite on_step_last by auto.
    unfold put_delay. rewrite K. replace (Z.of_nat (length p) + 1 - 1) with (Z.of_nat (length p)) by lia. rewrite py_set_mid.
    replace (Z.of_nat (length p) + 1 + 1) with (Z.of_nat (length (p ++ [v])) + 1) by (rewrite app_length; cbn [length]; lia).
    specialize (IH old (p ++ [v]) g rest j t us (put_spec (p ++ v :: old, g) u)). cbn [u_id put_spec] in IH. rewrite IH.
    + rewrite <- app_assoc. reflexivity.
    + cbn in H. lia.
    + cbn. rewrite <- app_assoc. reflexivity.
Qed.
Definition gain_lines (i : Z) (x : Z * gain4) : list line :=
  let '(k, ((a, b), (c, e))) := x in
  [L "OBS_BEAM_GAIN" [i; k; 1; 1] (dec a); L "OBS_BEAM_GAIN" [i; k; 1; 2] (dec b); L "OBS_BEAM_GAIN" [i; k; 2; 1] (dec c); L "OBS_BEAM_GAIN" [i; k; 2; 2] (dec e)].
Lemma gain_mid : forall u d p (m : gain4) l a b v r r', u_spec u = Some (d, p ++ m :: l) ->
  get2 (a - 1) m = Some r -> set2 (b - 1) v r = Some r' -> forall m', set2 (a - 1) r' m = Some m' ->
  put_gain (Z.of_nat (length p) + 1) a b v u = inr (put_spec (d, p ++ m' :: l) u).
Proof.
  intros u d p m l a b v r r' U A B m' C. unfold put_gain. rewrite U. replace (Z.of_nat (length p) + 1 - 1) with (Z.of_nat (length p)) by lia.
  rewrite py_get_mid, A, B, C, py_set_mid. reflexivity.
Qed.
Lemma gains_run : forall new old p d rest j t us u, length old = length new -> u_spec u = Some (d, p ++ old) ->
  run_items (flat_map (gain_lines (u_id u)) (number (Z.of_nat (length p) + 1) new) ++ rest) (mkSt j t (us ++ [u])) =
  run_items rest (mkSt j t (us ++ [put_spec (d, p ++ new) u])).
Proof.
  induction new as [|[[a b] [c e]] new IH]; intros old p d rest j t us u H K.
  - destruct old; [|discriminate]. cbn [number flat_map app]. unfold put_spec. rewrite <- K. destruct u. auto.
  - destruct old as [|[[a0 b0] [c0 e0]] old]; [discriminate|]. cbn [number flat_map gain_lines app].
    item. cbn [pad_ids app firstn nth]. rewrite on_step_last by auto. rewrite (gain_mid u d p _ old 1 1 a _ _ K eq_refl eq_refl _ eq_refl).
    item. cbn [pad_ids app firstn nth]. rewrite on_step_last by auto. erewrite (gain_mid _ d p _ old 1 2 b); [|reflexivity|reflexivity|reflexivity|reflexivity].
    item. cbn [pad_ids app firstn nth]. rewrite on_step_last by auto. erewrite (gain_mid _ d p _ old 2 1 c); [|reflexivity|reflexivity|reflexivity|reflexivity].
    item. cbn [pad_ids app firstn nth]. rewrite on_step_last by auto. erewrite (gain_mid _ d p _ old 2 2 e); [|reflexivity|reflexivity|reflexivity|reflexivity].
    cbn [fst snd]. unfold put_spec at 2 3 4. cbn [u_id u_c1 u_c2 u_dur u_f1 u_f2 u_hdr u_spec put_spec].
    replace (Z.of_nat (length p) + 1 + 1) with (Z.of_nat (length (p ++ [((a, b), (c, e))])) + 1) by (rewrite app_length; cbn [length]; lia).
    match goal with |- run_items _ (mkSt _ _ (_ ++ [?w])) = _ => set (u1 := w) end.
    specialize (IH old (p ++ [((a, b), (c, e))]) d rest j t us u1). change (u_id u1) with (u_id u) in IH. rewrite IH.
    + rewrite <- app_assoc. reflexivity.
    + cbn in H. lia.
    + cbn. rewrite <- app_assoc. reflexivity.
Qed.
Definition bt_of (i : Z) (p : bstep) : btemp := mkBt i (p_c1 p) (p_c2 p) (p_dur p) (p_f1 p) (p_f2 p) (p_hdr p) (p_spec p).
Definition spec_lens (p : bstep) : Prop := match p_spec p with Some (d, g) => length d = (2 * NSTD)%nat /\ length g = NSTD | None => True end.
Lemma step_run : forall i p h d rest j t us, match rev us with [] => True | u :: _ => u_id u <> i end -> u_hdr (base i us) = h -> u_spec (base i us) = d -> spec_lens p ->
  run_items (step_lines (i, p) ++ rest) (mkSt j t us) = run_items rest (mkSt j t (us ++ map (bt_of i) (back_steps h d [p]))).
Proof.
  intros i p h d rest j t us N H D S. assert (B : u_id (base i us) = i) by (unfold base; destruct (rev us); auto). unfold step_lines. rewrite <- app_assoc. cbn [app].
  item. cbn [pad_ids app firstn nth]. rewrite on_step_new by auto.
  item. cbn [pad_ids app firstn nth]. rewrite on_step_last by auto. cbn [u_id u_c1 u_c2 u_dur u_f1 u_f2 u_hdr u_spec].
  item. cbn [pad_ids app firstn nth]. rewrite on_step_last by auto. cbn [u_id u_c1 u_c2 u_dur u_f1 u_f2 u_hdr u_spec].
  item. cbn [pad_ids app firstn nth]. rewrite on_step_last by auto. cbn [u_id u_c1 u_c2 u_dur u_f1 u_f2 u_hdr u_spec].
  item. cbn [pad_ids app firstn nth]. rewrite on_step_last by auto. cbn [u_id u_c1 u_c2 u_dur u_f1 u_f2 u_hdr u_spec].
  item. cbn [pad_ids app firstn nth]. rewrite on_step_last by auto. cbn [u_id u_c1 u_c2 u_dur u_f1 u_f2 u_hdr u_spec].
  cbn [back_steps map]. unfold bt_of. cbn [p_c1 p_c2 p_dur p_f1 p_f2 p_hdr p_spec]. unfold step_beam. unfold spec_lens in S. destruct (p_spec p) as [[dl gn]|] eqn:E.
  - destruct S as [S1 S2]. change (put_beam (tx "SPEC_DELAYS_GAINS") (mkBt (u_id (base i us)) (decimals 9 (p_c1 p)) (decimals 9 (p_c2 p)) (p_dur p) (p_f1 p) (p_f2 p) (u_hdr (base i us)) (u_spec (base i us))))
      with (mkBt (u_id (base i us)) (decimals 9 (p_c1 p)) (decimals 9 (p_c2 p)) (p_dur p) (p_f1 p) (p_f2 p) (u_hdr (base i us)) (Some zero_spec)).
    rewrite <- app_assoc. set (u1 := mkBt _ _ _ _ _ _ _ _).
    pose proof (delays_run dl (repeat 0 (2 * NSTD)) [] (repeat ((0, 0), (0, 0)) NSTD)) as P1.
    specialize (P1 (flat_map (gain_lines i) (number 1 gn) ++ rest) j t us u1). rewrite repeat_length in P1. specialize (P1 (eq_sym S1) eq_refl).
    change (u_id u1) with (u_id (base i us)) in P1. rewrite B in P1. cbn [length Z.of_nat Z.add app] in P1. 
    etransitivity; [exact P1|]. clear P1. set (u2 := put_spec _ u1).
    pose proof (gains_run gn (repeat ((0, 0), (0, 0)) NSTD) [] dl rest j t us u2) as P2. rewrite repeat_length in P2. specialize (P2 (eq_sym S2) eq_refl).
    change (u_id u2) with (u_id (base i us)) in P2. rewrite B in P2. cbn [length Z.of_nat Z.add app] in P2. etransitivity; [exact P2|].
    unfold u2, u1, put_spec. cbn [u_id u_c1 u_c2 u_dur u_f1 u_f2 u_hdr u_spec]. rewrite B, H. reflexivity.
  - cbn [app]. f_equal. f_equal. f_equal. f_equal. destruct (p_hdr p).
    + change (put_beam (beam_text true) ?u) with (mkBt (u_id u) (u_c1 u) (u_c2 u) (u_dur u) (u_f1 u) (u_f2 u) true (u_spec u)). cbn [u_id u_c1 u_c2 u_dur u_f1 u_f2 u_hdr u_spec]. rewrite B, D. reflexivity.
    + change (put_beam (beam_text false) ?u) with (mkBt (u_id u) (u_c1 u) (u_c2 u) (u_dur u) (u_f1 u) (u_f2 u) false (u_spec u)). cbn [u_id u_c1 u_c2 u_dur u_f1 u_f2 u_hdr u_spec]. rewrite B, D. reflexivity.
Qed.
