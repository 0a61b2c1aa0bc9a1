(** Lemmas about interferometer definition files: from text to objects. *)
From Coq Require Import Ascii String.
From Coq Require Import List ZArith Bool Lia QArith Qround Qabs Lqa.
From Verif Require Import M_Str P_Str P_Bar M_Sdf S_Sdf P_Sdf P_SdfRun P_SdfObs P_SdfAll P_SdfBack M_Idf S_Idf.
Import ListNotations.
Open Scope Z_scope.
Ltac Zify.zify_post_hook ::= Z.div_mod_to_equations.

Ltac ikw := repeat match goal with |- context[ikeyword_of (tx ?s)] => let w := eval vm_compute in (ikeyword_of (tx s)) in change (ikeyword_of (tx s)) with w end.
Fixpoint irun_items (ls : list line) (st : istate) : exn + istate :=
  match ls with
  | [] => inr st
  | l :: r => match iapply (ikeyword_of (l_key l)) (pad_ids (l_ids l)) (l_val l) st with inl e => inl e | inr st' => irun_items r st' end
  end.
Lemma irun_file : forall ls st, Forall line_ok ls -> run_idf (split 10 (map cr (flat_map text_of ls))) st = irun_items ls st.
Proof.
  intros ls st H. rewrite file_lines by auto. revert st. induction ls as [|l ls IH]; intro st; [reflexivity|]. inversion H; subst.
  cbn [map app run_idf irun_items]. unfold body. rewrite lex_line by auto. destruct (iapply _ _ _ st); auto.
Qed.
Lemma irun_cons : forall l r st, irun_items (l :: r) st = match iapply (ikeyword_of (l_key l)) (pad_ids (l_ids l)) (l_val l) st with inl e => inl e | inr st' => irun_items r st' end.
Proof. reflexivity. Qed.
Ltac iitem := cbn [app]; rewrite irun_cons; cbn [l_key l_ids l_val L]; ikw; cbn [iapply]; unfold with_int, with_float, on_run, on_kept, on_stemp; rewrite ?parse_dec, ?fix_parse by lia; cbv beta iota; cbn [z_proj z_temp z_alts].

(** *** Alternate phase centers *)
Lemma change_last_app : forall f us u, change_last f (us ++ [u]) = us ++ [mkAt (b_id u) (f (b_apc u))].
Proof. induction us as [|a us IH]; intro u; [reflexivity|]. cbn [app]. specialize (IH u). destruct (us ++ [u]) eqn:E; [destruct us; discriminate|]. cbn [change_last] in *. rewrite IH. reflexivity. Qed.
Lemma on_alt_same : forall b i f j t us a, on_alt b i f (mkIs j t (us ++ [mkAt i a])) = inr (mkIs j t (us ++ [mkAt i (f a)])).
Proof. intros. unfold on_alt, touch_alt. cbn [z_proj z_temp z_alts]. rewrite rev_app_distr. cbn [rev app b_id]. rewrite Z.eqb_refl, change_last_app. reflexivity. Qed.
Definition last_apc (us : list atemp) : apc := match rev us with [] => apc0 | u :: _ => b_apc u end.
Lemma on_alt_new : forall i f j t us, match rev us with [] => True | u :: _ => b_id u < i end ->
  on_alt true i f (mkIs j t us) = inr (mkIs j t (us ++ [mkAt i (f (last_apc us))])).
Proof.
  intros i f j t us H. unfold on_alt, touch_alt, last_apc. cbn [z_proj z_temp z_alts]. destruct (rev us) as [|u r] eqn:E.
  - assert (us = []) by (rewrite <- (rev_involutive us), E; auto). subst. reflexivity.
  - destruct (Z.eqb_spec (b_id u) i); [lia|]. rewrite change_last_app. reflexivity.
Qed.
Lemma moving_motion : forall pm, moving pm = negb (no_motion pm).
Proof. intro pm. unfold moving, no_motion. rewrite negb_andb. reflexivity. Qed.
Fixpoint numbered (i : Z) (l : list apc) : list atemp := match l with [] => [] | a :: r => mkAt i a :: numbered (i + 1) r end.
Lemma alts_run : forall l i rest j t us, match rev us with [] => True | u :: _ => b_id u < i end ->
  irun_items (flat_map alt_lines (number i l) ++ rest) (mkIs j t us) = irun_items rest (mkIs j t (us ++ numbered i (back_alts (a_pm (last_apc us)) l))).
Proof.
  induction l as [|a l IH]; intros i rest j t us H; [cbn; rewrite app_nil_r; reflexivity|].
  cbn [number flat_map alt_lines]. rewrite <- !app_assoc. set (R := flat_map alt_lines (number (i + 1) l) ++ rest).
  iitem. cbn [pad_ids app firstn nth]. rewrite on_alt_new by auto.
  iitem. cbn [pad_ids app firstn nth]. rewrite on_alt_same. cbn [a_target a_intent a_ra a_dec a_pm].
  iitem. cbn [pad_ids app firstn nth]. rewrite on_alt_same. cbn [a_target a_intent a_ra a_dec a_pm].
  iitem. cbn [pad_ids app firstn nth]. rewrite on_alt_same. cbn [a_target a_intent a_ra a_dec a_pm].
  cbn [back_alts numbered]. set (q := if no_motion (a_pm a) then a_pm (last_apc us) else back_pm (a_pm a)).
  set (x := mkApc (a_target a) (a_intent a) (decimals 9 (a_ra a)) (decimals 9 (a_dec a)) q).
  assert (G : irun_items R (mkIs j t (us ++ [mkAt i x])) = irun_items rest (mkIs j t (us ++ mkAt i x :: numbered (i + 1) (back_alts q l)))).
  { unfold R. rewrite IH by (rewrite rev_app_distr; cbn; lia). f_equal. f_equal. rewrite <- app_assoc. cbn [app]. unfold last_apc. rewrite rev_app_distr. reflexivity. }
  rewrite moving_motion. unfold q, x in *. destruct (no_motion (a_pm a)); cbn [negb app]; [exact G|].
  iitem. cbn [pad_ids app firstn nth]. rewrite on_alt_same. cbn [a_target a_intent a_ra a_dec a_pm fst snd].
  iitem. cbn [pad_ids app firstn nth]. rewrite on_alt_same. cbn [a_target a_intent a_ra a_dec a_pm fst snd]. exact G.
Qed.

(** *** One scan *)
Definition temp_of (i : Z) (o : scan) (t : stemp) : stemp :=
  mkStemp i (n_target o) (n_intent o) (back_note (n_comments o)) (Some (n_mjd o)) (Some (n_mpm o)) (Some (n_dur o)) (to_text (n_to o))
    (match n_to o with ToRaDec ra _ _ => decimals 9 ra | _ => v_ra t end) (match n_to o with ToRaDec _ de _ => decimals 9 de | _ => v_dec t end)
    (n_f1 o) (n_f2 o) (n_filter o) (after (v_kept t) o).
Lemma note_eq : forall o, Some (or_none (firstn 4090 (remarks o))) = back_note (n_comments o).
Proof.
  intro o. unfold back_note, remarks, back_remarks. destruct (n_comments o) as [c|]; [|rewrite !firstn_nil; reflexivity]. generalize (firstn 4090 c). intro s. destruct s; reflexivity.
Qed.
Lemma scan_tail_run : forall i o rest j t,
  irun_items (tl (scan_lines (i, o)) ++ rest) (mkIs j t []) = irun_items rest (mkIs j (temp_of (v_id t) o t) (numbered 1 (back_alts (0%Q, 0%Q) (n_alts o)))).
Proof.
  intros i o rest j t. unfold scan_lines. cbn [app tl]. pose proof (note_eq o) as N. revert N. generalize (or_none (firstn 4090 (remarks o))). intros note N. repeat (rewrite <- app_assoc; cbn [app]).
  iitem. iitem. iitem. iitem. iitem. iitem. iitem. rewrite N. clear N note.
  set (S3 := (L "SCAN_FREQ1" [] (dec (n_f1 o))) :: _).
  set (t1 := v_set_mode (to_text (n_to o)) _).
  set (t2 := mkStemp (v_id t) (n_target o) (n_intent o) (back_note (n_comments o)) (Some (n_mjd o)) (Some (n_mpm o)) (Some (n_dur o)) (to_text (n_to o))
    (match n_to o with ToRaDec ra _ _ => decimals 9 ra | _ => v_ra t end) (match n_to o with ToRaDec _ de _ => decimals 9 de | _ => v_dec t end)
    (v_f1 t) (v_f2 t) (v_filter t) (mkKept (kp_pm (after (v_kept t) o)) (kp_nalt (v_kept t)) (kp_gain (v_kept t)) (kp_asp (v_kept t)))).
  assert (P : irun_items (to_lines (n_to o) ++ S3) (mkIs j t1 []) = irun_items S3 (mkIs j t2 [])).
  { unfold t1, t2, after. unfold to_lines. clear t1 t2. destruct (n_to o) as [ra de pm| |]; cbn [to_text kp_pm]; [|destruct t as [? ? ? ? ? ? ? ? ? ? ? ? ? [? ? ? ?]]; reflexivity..].
    rewrite moving_motion. rewrite <- app_assoc. cbn [app]. iitem. iitem. destruct (no_motion pm); cbn [negb app].
    - destruct t as [? ? ? ? ? ? ? ? ? ? ? ? ? [? ? ? ?]]; reflexivity.
    - iitem. iitem. destruct t as [? ? ? ? ? ? ? ? ? ? ? ? ? [? ? ? ?]]; reflexivity. }
  rewrite P. unfold S3. clear P S3 t1. iitem. iitem. iitem.
  set (S4 := (if n_asp o =? -1 then [] else _) ++ _). set (t3 := v_set_filter (n_filter o) _).
  set (t4 := v_set_kept (mkKept (kp_pm (after (v_kept t) o)) (kp_nalt (after (v_kept t) o)) (kp_gain (v_kept t)) (kp_asp (v_kept t))) t3).
  assert (P : irun_items (match n_alts o with [] => [] | _ :: _ => L "SCAN_ALT_N" [] (dec (Z.of_nat (length (n_alts o)))) :: flat_map alt_lines (number 1 (n_alts o)) end ++ S4) (mkIs j t3 []) =
              irun_items S4 (mkIs j t4 (numbered 1 (back_alts (0%Q, 0%Q) (n_alts o))))).
  { unfold t4, after. cbn [kp_nalt]. destruct (n_alts o) as [|a l] eqn:E; [reflexivity|]. rewrite <- E. assert (X : match n_alts o with [] => kp_nalt (v_kept t) | _ :: _ => Z.of_nat (length (n_alts o)) end = Z.of_nat (length (n_alts o))) by (rewrite E; reflexivity).
    cbn [app]. iitem. rewrite (alts_run (n_alts o) 1 S4) by exact Logic.I. reflexivity. }
  assert (Q : match n_alts o with [] => [] | _ :: _ => L "SCAN_ALT_N" [] (dec (Z.of_nat (length (n_alts o)))) :: flat_map alt_lines (number 1 (n_alts o)) end =
              match n_alts o with [] => [] | a :: l => L "SCAN_ALT_N" [] (dec (Z.of_nat (length (a :: l)))) :: flat_map alt_lines (number 1 (a :: l)) end) by (destruct (n_alts o); reflexivity).
  rewrite Q in P. clear Q. etransitivity; [exact P|]. clear P. unfold S4. clear S4.
  set (us := numbered 1 _). unfold t4, t3, t2. clear t4 t3 t2. unfold temp_of, after.
  destruct (n_asp o =? -1), (n_gain o =? -1); cbn [app]; repeat iitem; reflexivity.
Qed.
