(** Lemmas about session definition files: the session, the lines of a file, and the whole. *)
From Coq Require Import Ascii String.
From Coq Require Import List ZArith Bool Lia QArith Qround Qabs Lqa.
From Verif Require Import M_Str P_Str P_Bar M_Sdf S_Sdf P_Sdf P_SdfRun P_SdfObs.
Import ListNotations.
Open Scope Z_scope.
Ltac Zify.zify_post_hook ::= Z.div_mod_to_equations.

(** *** The session *)
Definition mib (n : nat) (v : Z) (l : list Z) : list Z := if v =? -1 then l else set_nth n v l.
Definition all_one (w : str -> kwd) (pre : string) (put : list Z -> session -> session) : Prop :=
  forall c n v rest j t us r s, keyword_of (tx pre ++ c) = w c -> find_component c components = Some n ->
  run_items ((if v =? -1 then [] else [mkLine (tx pre ++ c) [] (dec v)]) ++ rest) (mkSt (with_ses j (put r s)) t us) = run_items rest (mkSt (with_ses j (put (mib n v r) s)) t us).
Definition with_record (r : list Z) (s : session) :=
  mkSes (s_id s) (s_name s) (s_comments s) (s_method s) (s_cra s) (s_beam s) (s_nchan s) (s_nwin s) (s_meta s) r (s_update s) (s_sch s) (s_exe s) (s_smib s) (s_design s) (s_obs s).
Definition with_update (r : list Z) (s : session) :=
  mkSes (s_id s) (s_name s) (s_comments s) (s_method s) (s_cra s) (s_beam s) (s_nchan s) (s_nwin s) (s_meta s) (s_record s) r (s_sch s) (s_exe s) (s_smib s) (s_design s) (s_obs s).
Lemma mrp_one : all_one KMrp "SESSION_MRP_" with_record.
Proof.
  intros c n v rest j t us r s K F. unfold mib. destruct (v =? -1); [reflexivity|].
  cbn [app run_items l_key l_ids l_val]. rewrite K. cbn [apply]. unfold with_int. rewrite parse_dec. unfold on_ses, put_mib. rewrite F. reflexivity.
Qed.
Lemma mup_one : all_one KMup "SESSION_MUP_" with_update.
Proof.
  intros c n v rest j t us r s K F. unfold mib. destruct (v =? -1); [reflexivity|].
  cbn [app run_items l_key l_ids l_val]. rewrite K. cbn [apply]. unfold with_int. rewrite parse_dec. unfold on_ses, put_mib. rewrite F. reflexivity.
Qed.
Lemma mib_mid : forall v p q, mib (length p) v (p ++ (-1) :: q) = p ++ v :: q.
Proof. intros v p q. unfold mib. destruct (Z.eqb_spec v (-1)); [subst; auto|apply set_nth_app]. Qed.
Lemma mib_at : forall n v p q l, n = length p -> l = p ++ (-1) :: q -> mib n v l = p ++ v :: q.
Proof. intros n v p q l -> ->. apply mib_mid. Qed.
Ltac nine l := destruct l as [|v0 l]; [discriminate|]; destruct l as [|v1 l]; [discriminate|]; destruct l as [|v2 l]; [discriminate|]; destruct l as [|v3 l]; [discriminate|];
  destruct l as [|v4 l]; [discriminate|]; destruct l as [|v5 l]; [discriminate|]; destruct l as [|v6 l]; [discriminate|]; destruct l as [|v7 l]; [discriminate|];
  destruct l as [|v8 l]; [discriminate|]; destruct l; [|discriminate].
Lemma mib_all : forall v0 v1 v2 v3 v4 v5 v6 v7 v8,
  mib 8 v8 (mib 7 v7 (mib 6 v6 (mib 5 v5 (mib 4 v4 (mib 3 v3 (mib 2 v2 (mib 1 v1 (mib 0 v0 (repeat (-1) 9))))))))) = [v0; v1; v2; v3; v4; v5; v6; v7; v8].
Proof.
  intros. cbn [repeat].
  erewrite (mib_at 0 v0 [] [-1; -1; -1; -1; -1; -1; -1; -1]) by reflexivity. cbn [app].
  erewrite (mib_at 1 v1 [v0] [-1; -1; -1; -1; -1; -1; -1]) by reflexivity. cbn [app].
  erewrite (mib_at 2 v2 [v0; v1] [-1; -1; -1; -1; -1; -1]) by reflexivity. cbn [app].
  erewrite (mib_at 3 v3 [v0; v1; v2] [-1; -1; -1; -1; -1]) by reflexivity. cbn [app].
  erewrite (mib_at 4 v4 [v0; v1; v2; v3] [-1; -1; -1; -1]) by reflexivity. cbn [app].
  erewrite (mib_at 5 v5 [v0; v1; v2; v3; v4] [-1; -1; -1]) by reflexivity. cbn [app].
  erewrite (mib_at 6 v6 [v0; v1; v2; v3; v4; v5] [-1; -1]) by reflexivity. cbn [app].
  erewrite (mib_at 7 v7 [v0; v1; v2; v3; v4; v5; v6] [-1]) by reflexivity. cbn [app].
  erewrite (mib_at 8 v8 [v0; v1; v2; v3; v4; v5; v6; v7] []) by reflexivity. cbn [app].
  reflexivity.
Qed.
Lemma mib_run : forall w pre put l rest j t us s, all_one w pre put -> (forall c, In c components -> keyword_of (tx pre ++ c) = w c) -> length l = 9%nat ->
  run_items (mib_lines pre l ++ rest) (mkSt (with_ses j (put (repeat (-1) 9) s)) t us) = run_items rest (mkSt (with_ses j (put l s)) t us).
Proof.
  intros w pre put l rest j t us s H K N. unfold all_one in H. nine l. rewrite <- (mib_all v0 v1 v2 v3 v4 v5 v6 v7 v8) at 2. generalize (repeat (-1) 9). intro r. unfold mib_lines, components. cbn [map combine flat_map fst snd]. rewrite <- !app_assoc.
  rewrite (H (tx "ASP") 0%nat) by (first [reflexivity|apply K; cbn; tauto]). rewrite (H (tx "NDP") 1%nat) by (first [reflexivity|apply K; cbn; tauto]).
  rewrite (H (tx "DR1") 2%nat) by (first [reflexivity|apply K; cbn; tauto]). rewrite (H (tx "DR2") 3%nat) by (first [reflexivity|apply K; cbn; tauto]).
  rewrite (H (tx "DR3") 4%nat) by (first [reflexivity|apply K; cbn; tauto]). rewrite (H (tx "DR4") 5%nat) by (first [reflexivity|apply K; cbn; tauto]).
  rewrite (H (tx "DR5") 6%nat) by (first [reflexivity|apply K; cbn; tauto]). rewrite (H (tx "SHL") 7%nat) by (first [reflexivity|apply K; cbn; tauto]).
  rewrite (H (tx "MCS") 8%nat) by (first [reflexivity|apply K; cbn; tauto]). reflexivity.
Qed.
Lemma mrp_kw : forall c, In c components -> keyword_of (tx "SESSION_MRP_" ++ c) = KMrp c.
Proof. intros c H. unfold components in H. cbn [map In] in H. repeat (destruct H as [<- | H]; [reflexivity|]). tauto. Qed.
Lemma mup_kw : forall c, In c components -> keyword_of (tx "SESSION_MUP_" ++ c) = KMup c.
Proof. intros c H. unfold components in H. cbn [map In] in H. repeat (destruct H as [<- | H]; [reflexivity|]). tauto. Qed.

(** The spectrometer: channels, windows, metatag. *)
Lemma split1_none : forall c s, ~ In c s -> split1 c s = None.
Proof.
  induction s as [|x s IH]; intro H; cbn; auto. destruct (Z.eqb_spec x c); [exfalso; apply H; left; auto|]. rewrite IH; auto. intro. apply H. right. auto.
Qed.
Definition spc_text (n w : Z) (m : str) : str := dec n ++ 32 :: dec w ++ m.
Lemma nums_no : forall n w c, is_digit c = false -> c <> 45 -> c <> 32 -> ~ In c (dec n ++ 32 :: dec w).
Proof. intros n w c D A B H. apply in_app_iff in H. destruct H as [H | [H | H]]; [apply dec_no in H; auto|lia|apply dec_no in H; auto]. Qed.
Lemma meta_facts : forall m, In m metatags -> ~ In 39 m /\ ~ In 10 m /\ ~ In 13 m /\ (m = [] \/ exists b, m = 123 :: b ++ [125] /\ rsplit1 125 (b ++ [125]) = Some (b, [])).
Proof.
  intros m H. unfold metatags in H. cbn [map] in H. destruct H as [<- | [<- | [<- | [<- | []]]]].
  - split; [|split; [|split; [|left; reflexivity]]]; intros [].
  - split; [|split; [|split; [|right; exists (tx "Stokes=XXYY"); split; reflexivity]]]; vm_compute; intuition discriminate.
  - split; [|split; [|split; [|right; exists (tx "Stokes=IQUV"); split; reflexivity]]]; vm_compute; intuition discriminate.
  - split; [|split; [|split; [|right; exists (tx "Stokes=IV"); split; reflexivity]]]; vm_compute; intuition discriminate.
Qed.
Lemma spc_cut : forall n w m, In m metatags -> cut_meta (drop_char 39 (spc_text n w m)) = (dec n ++ 32 :: dec w, m).
Proof.
  intros n w m M. destruct (meta_facts m M) as (Q & _ & _ & S). assert (E : spc_text n w m = (dec n ++ 32 :: dec w) ++ m) by (unfold spc_text; rewrite <- app_assoc; reflexivity).
  rewrite drop_char_no.
  - rewrite E. unfold cut_meta. destruct S as [-> | (b & -> & R)].
    + rewrite app_nil_r, split1_none by (apply nums_no; auto; lia). reflexivity.
    + rewrite (split1_found 123 (dec n ++ 32 :: dec w)) by (apply nums_no; auto; lia). rewrite R, app_nil_r. reflexivity.
  - rewrite E. intro H. apply in_app_iff in H. destruct H as [H | H]; [|auto]. apply nums_no in H; auto; lia.
Qed.
Definition with_spc (a b : Z) (m : str) (s : session) : session :=
  mkSes (s_id s) (s_name s) (s_comments s) (s_method s) (s_cra s) (s_beam s) a b m (s_record s) (s_update s) (s_sch s) (s_exe s) (s_smib s) (s_design s) (s_obs s).
Lemma nums_trimmed : forall n w, trimmed (dec n ++ 32 :: dec w).
Proof.
  intros n w. split.
  - pose proof (edge_app (dec n) (32 :: dec w) (dec_first n)) as E. unfold edge in E. destruct (_ ++ _); tauto.
  - rewrite rev_app_distr. cbn [rev]. rewrite <- app_assoc. destruct (dec_trimmed w) as [_ T]. pose proof (dec_ne w). destruct (rev (dec w)) eqn:E; [|exact T].
    apply (f_equal (@rev Z)) in E. rewrite rev_involutive in E. cbn in E. congruence.
Qed.
Lemma spc_put : forall n w m s, In m metatags -> put_spc (spc_text n w m) s = inr (with_spc n w m s).
Proof.
  intros n w m s M. unfold put_spc. rewrite spc_cut by auto. rewrite strip_id by apply nums_trimmed. destruct (dec_word n) as (A & B & C). destruct (dec_word w) as (D & E & F).
  rewrite words_two by auto. rewrite !parse_dec. reflexivity.
Qed.

Definition ses_of (s : session) (l : list obs) : session :=
  mkSes (s_id s) (s_name s) (back_remarks (s_comments s)) (s_method s) (s_cra s) (s_beam s) (s_nchan s) (s_nwin s) (s_meta s)
        (s_record s) (s_update s) (s_sch s) (s_exe s) (s_smib s) (s_design s) l.
Definition spc_good (s : session) : Prop := (s_nchan s = 0 /\ s_nwin s = 0 /\ s_meta s = []) \/ (s_nchan s <> 0 /\ s_nwin s <> 0 /\ In (s_meta s) metatags).
Lemma method_put : forall m s, In m [tx "UCF"; tx "DRSU"; tx "USB Harddrives"] ->
  put_method (tx "Requested data return method is " ++ m) s =
  mkSes (s_id s) (s_name s) (s_comments s) m (s_cra s) (s_beam s) (s_nchan s) (s_nwin s) (s_meta s) (s_record s) (s_update s) (s_sch s) (s_exe s) (s_smib s) (s_design s) (s_obs s).
Proof. intros m s [<- | [<- | [<- | []]]]; reflexivity. Qed.
Section Parts.
  Variables (rest : list line) (j : project) (t : temp) (us : list btemp).
  Variables (i : Z) (n c m : str) (cra bm nc nw : Z) (mt : str) (r u : list Z) (f1 f2 f3 f4 : bool) (l : list obs).
  Definition ses_st (s : session) : pstate := mkSt (with_ses j s) t us.
  Lemma cra_run : forall v, run_items ((if v =? 0 then [] else [L "SESSION_CRA" [] (dec v)]) ++ rest) (ses_st (mkSes i n c m 0 bm nc nw mt r u f1 f2 f3 f4 l)) =
    run_items rest (ses_st (mkSes i n c m v bm nc nw mt r u f1 f2 f3 f4 l)).
  Proof. intro v. destruct (Z.eqb_spec v 0); [subst; reflexivity|]. cbn [app]. item. reflexivity. Qed.
  Lemma beam_run : forall v, run_items ((if v =? -1 then [] else [L "SESSION_DRX_BEAM" [] (dec v)]) ++ rest) (ses_st (mkSes i n c m cra (-1) nc nw mt r u f1 f2 f3 f4 l)) =
    run_items rest (ses_st (mkSes i n c m cra v nc nw mt r u f1 f2 f3 f4 l)).
  Proof. intro v. destruct (Z.eqb_spec v (-1)); [subst; reflexivity|]. cbn [app]. item. reflexivity. Qed.
  Lemma spc_run : forall s, spc_good s ->
    run_items ((if (s_nchan s =? 0) || (s_nwin s =? 0) then [] else [L "SESSION_SPC" [] (dec (s_nchan s) ++ 32 :: dec (s_nwin s) ++ s_meta s)]) ++ rest)
      (ses_st (mkSes i n c m cra bm 0 0 [] r u f1 f2 f3 f4 l)) = run_items rest (ses_st (mkSes i n c m cra bm (s_nchan s) (s_nwin s) (s_meta s) r u f1 f2 f3 f4 l)).
  Proof.
    intros s [(G1 & G2 & G3) | (G1 & G2 & G3)].
    - rewrite G1, G2, G3. reflexivity.
    - destruct (Z.eqb_spec (s_nchan s) 0); [congruence|]. destruct (Z.eqb_spec (s_nwin s) 0); [congruence|]. cbn [orb app]. fold (spc_text (s_nchan s) (s_nwin s) (s_meta s)).
      item. cbn [ses_st q_proj q_temp q_steps with_ses j_ses]. rewrite spc_put by auto. reflexivity.
  Qed.
  Lemma sch_run : forall v, run_items (flag_line "SESSION_LOG_SCH" v ++ rest) (ses_st (mkSes i n c m cra bm nc nw mt r u false f2 f3 f4 l)) =
    run_items rest (ses_st (mkSes i n c m cra bm nc nw mt r u v f2 f3 f4 l)).
  Proof. intros []; reflexivity. Qed.
  Lemma exe_run : forall v, run_items (flag_line "SESSION_LOG_EXE" v ++ rest) (ses_st (mkSes i n c m cra bm nc nw mt r u f1 false f3 f4 l)) =
    run_items rest (ses_st (mkSes i n c m cra bm nc nw mt r u f1 v f3 f4 l)).
  Proof. intros []; reflexivity. Qed.
  Lemma smib_run : forall v, run_items (flag_line "SESSION_INC_SMIB" v ++ rest) (ses_st (mkSes i n c m cra bm nc nw mt r u f1 f2 false f4 l)) =
    run_items rest (ses_st (mkSes i n c m cra bm nc nw mt r u f1 f2 v f4 l)).
  Proof. intros []; reflexivity. Qed.
  Lemma des_run : forall v, run_items (flag_line "SESSION_INC_DES" v ++ rest) (ses_st (mkSes i n c m cra bm nc nw mt r u f1 f2 f3 false l)) =
    run_items rest (ses_st (mkSes i n c m cra bm nc nw mt r u f1 f2 f3 v l)).
  Proof. intros []; reflexivity. Qed.
  Lemma rec_run : forall v, length v = 9%nat -> run_items (mib_lines "SESSION_MRP_" v ++ rest) (ses_st (mkSes i n c m cra bm nc nw mt (repeat (-1) 9) u f1 f2 f3 f4 l)) =
    run_items rest (ses_st (mkSes i n c m cra bm nc nw mt v u f1 f2 f3 f4 l)).
  Proof. intros v N. exact (mib_run KMrp "SESSION_MRP_" with_record v rest j t us (mkSes i n c m cra bm nc nw mt [] u f1 f2 f3 f4 l) mrp_one mrp_kw N). Qed.
  Lemma upd_run : forall v, length v = 9%nat -> run_items (mib_lines "SESSION_MUP_" v ++ rest) (ses_st (mkSes i n c m cra bm nc nw mt r (repeat (-1) 9) f1 f2 f3 f4 l)) =
    run_items rest (ses_st (mkSes i n c m cra bm nc nw mt r v f1 f2 f3 f4 l)).
  Proof. intros v N. exact (mib_run KMup "SESSION_MUP_" with_update v rest j t us (mkSes i n c m cra bm nc nw mt r [] f1 f2 f3 f4 l) mup_one mup_kw N). Qed.
End Parts.
Lemma ses_head_run : forall s rest j t us, ses_wf s -> j_ses j = ses0 ->
  run_items ([L "SESSION_ID" [] (dec (s_id s)); L "SESSION_TITLE" [] (s_name s); L "SESSION_REMPI" [] (or_none (firstn 4090 (s_comments s)));
     L "SESSION_REMPO" [] (tx "Requested data return method is " ++ s_method s)] ++ rest) (mkSt j t us) =
  run_items rest (ses_st j t us (mkSes (s_id s) (s_name s) (back_remarks (s_comments s)) (s_method s) 0 (-1) 0 0 [] (repeat (-1) 9) (repeat (-1) 9) false false false false [])).
Proof.
  intros s rest j t us W J. cbn [app]. item. item. item. item. cbn [q_proj q_temp q_steps with_ses j_ses]. rewrite method_put by apply (w_method s W). rewrite fold_none, J. reflexivity.
Qed.
Lemma session_run : forall s rest j t us, ses_wf s -> spc_good s -> j_ses j = ses0 ->
  run_items (session_lines s ++ rest) (mkSt j t us) = run_items rest (mkSt (with_ses j (ses_of s [])) t us).
Proof.
  intros s rest j t us W G J. unfold session_lines. rewrite <- !app_assoc. rewrite ses_head_run by auto.
  rewrite cra_run, beam_run, spc_run, rec_run, upd_run, sch_run, exe_run, smib_run, des_run by (first [exact G|apply (w_record s W)|apply (w_update s W)]). reflexivity.
Qed.

(** *** Well-formed lines *)
Definition key_okb (k : str) : bool := negb (str_eqb k []) && forallb key_char k && negb (last k 0 =? 43).
Lemma key_okb_ok : forall k, key_okb k = true -> key_ok k.
Proof.
  intros k H. unfold key_okb in H. rewrite !andb_true_iff, !negb_true_iff in H. destruct H as [[A B] C]. split; [|split].
  - intros ->. discriminate.
  - apply Forall_forall. apply forallb_forall. auto.
  - apply Z.eqb_neq. auto.
Qed.
Lemma lok : forall k ids v, key_okb (tx k) = true -> forallb (Z.leb 0) ids = true -> (length ids <= 4)%nat -> clean v -> line_ok (L k ids v).
Proof.
  intros k ids v K I N V. split; [apply key_okb_ok; auto|]. split; [|split; auto]. cbn. apply Forall_forall. intros x X. rewrite forallb_forall in I. specialize (I x X). apply Z.leb_le. auto.
Qed.
Lemma cleanb : forall v, (match v with [] => false | c :: _ => negb (is_space c) end && negb (existsb (Z.eqb 10) v) && negb (existsb (Z.eqb 13) v)) = true -> clean v.
Proof.
  intros v H. rewrite !andb_true_iff, !negb_true_iff in H. destruct H as [[A B] C]. split; [|split].
  - destruct v; [discriminate|]. apply negb_true_iff in A. auto.
  - intro X. apply not_true_iff_false in B. apply B. apply existsb_exists. exists 10. auto.
  - intro X. apply not_true_iff_false in C. apply C. apply existsb_exists. exists 13. auto.
Qed.
Lemma none_clean : clean (tx "None provided").
Proof. apply cleanb. reflexivity. Qed.
Lemma or_none_clean : forall s, clean_or_empty s -> clean (or_none s).
Proof. intros s [-> | H]; [apply none_clean|]. destruct s; [destruct H as [[] _]|exact H]. Qed.
Lemma firstn_clean : forall n s, clean_or_empty s -> clean_or_empty (firstn (S n) s).
Proof.
  intros n s [-> | (A & B & C)]; [left; reflexivity|right]. destruct s as [|c s]; [destruct A|]. split; [exact A|].
  assert (I : forall x, In x (firstn (S n) (c :: s)) -> In x (c :: s)). { intros x X. rewrite <- (firstn_skipn (S n) (c :: s)). apply in_app_iff. auto. }
  split; intro X; apply I in X; auto.
Qed.
Ltac ok := apply lok; [reflexivity| |cbn; lia|]; [cbn [forallb]; rewrite ?andb_true_r; try reflexivity; try (apply Z.leb_le; lia); repeat (apply andb_true_iff; split); try reflexivity; apply Z.leb_le; lia|].
Lemma number_in : forall (A : Type) (l : list A) i x, In x (number i l) -> i <= fst x /\ In (snd x) l.
Proof.
  induction l as [|a l IH]; intros i x H; cbn in H; [tauto|]. destruct H as [<- | H]; [cbn; split; [lia|auto]|]. apply IH in H. cbn. split; [lia|tauto].
Qed.
Lemma fl : forall (A : Type) (f : A -> list line) l, (forall x, In x l -> Forall line_ok (f x)) -> Forall line_ok (flat_map f l).
Proof. induction l as [|a l IH]; intro H; cbn; [constructor|]. apply Forall_app. split; [apply H; left; auto|apply IH; intros; apply H; right; auto]. Qed.
Lemma beam_clean : forall h, clean (beam_text h).
Proof. intros []; apply cleanb; reflexivity. Qed.
Ltac each := repeat match goal with |- Forall _ (_ :: _) => apply Forall_cons | |- Forall _ [] => apply Forall_nil end.
Lemma step_lines_ok : forall x, 1 <= fst x -> Forall line_ok (step_lines x).
Proof.
  intros [i p] H. cbn in H. unfold step_lines. apply Forall_app. split.
  - each; ok; try apply fix_clean; try apply dec_clean; try lia. unfold step_beam. destruct (p_spec p); [apply cleanb; reflexivity|apply beam_clean].
  - destruct (p_spec p) as [[d g]|]; [|constructor]. apply Forall_app. split.
    + apply Forall_forall. intros l X. apply in_map_iff in X. destruct X as ([k v] & <- & X). apply number_in in X. cbn [fst snd] in *. ok. apply dec_clean.
    + apply fl. intros [k [[a b] [c e]]] X. apply number_in in X. cbn [fst snd] in *. each; ok; apply dec_clean.
Qed.
Lemma mode_lines_ok : forall s, Forall line_ok (mode_lines s).
Proof.
  intros [n|f1 f|k f1 f2 f h|f rd ss]; cbn [mode_lines].
  - constructor.
  - each; ok; apply dec_clean.
  - apply Forall_app. split; [destruct k; each; ok; apply fix_clean; lia|]. each; ok; try apply dec_clean. apply beam_clean.
  - apply Forall_app. split; [each; ok; apply dec_clean|]. apply fl. intros x X. apply number_in in X. apply step_lines_ok. lia.
Qed.
Lemma setting_lines_ok : forall k l, key_okb (tx k) = true -> Forall line_ok (setting_lines k l).
Proof.
  intros k [|h l] K; [constructor|]. unfold setting_lines. remember (h :: l) as m. destruct (forallb (Z.eqb h) m).
  - destruct (h =? -1); each; apply lok; auto; try apply dec_clean; cbn; lia.
  - apply fl. intros x X. apply number_in in X. destruct (snd x =? -1); each. apply lok; [auto| |cbn; lia|apply dec_clean]. cbn. rewrite andb_true_r. apply Z.leb_le. lia.
Qed.
Lemma fee_lines_ok : forall l, Forall line_ok (fee_lines l).
Proof.
  intros [|h l]; [constructor|]. unfold fee_lines. remember (h :: l) as m. destruct (forallb (eqb2 h) m).
  - destruct (_ || _); each; ok; apply dec_clean.
  - apply fl. intros x X. apply number_in in X. apply Forall_app. split; destruct (_ =? -1); each; ok; apply dec_clean.
Qed.
Lemma mode_clean : forall s, clean (mode_text s).
Proof. intros [n|f1 f|k f1 f2 f h|f rd ss]; try destruct k; apply cleanb; reflexivity. Qed.
Lemma obs_lines_ok : forall x, obs_wf (snd x) -> Forall line_ok (obs_lines x).
Proof.
  intros [i o] W. cbn in W. unfold obs_lines. repeat (apply Forall_app; split).
  - each; ok; try apply dec_clean; try apply mode_clean; apply or_none_clean; [apply (w_name o W)|apply (w_target o W)|apply firstn_clean; apply (w_comments o W)].
  - pose proof (w_bdm o W) as B. destruct (o_bdm o); each. ok. apply bdm_clean. auto.
  - apply mode_lines_ok.
  - apply fee_lines_ok.
  - apply setting_lines_ok. reflexivity.
  - apply setting_lines_ok. reflexivity.
  - apply setting_lines_ok. reflexivity.
  - apply setting_lines_ok. reflexivity.
  - destruct (o_setup o); [each; ok; apply dec_clean| | |]; destruct (o_gain o =? -1); each; ok; apply dec_clean.
Qed.
Lemma mib_lines_ok : forall pre l, Forall (fun c => key_okb (tx pre ++ c) = true) components -> Forall line_ok (mib_lines pre l).
Proof.
  intros pre l H. unfold mib_lines. apply fl. intros [c v] X. apply in_combine_l in X. rewrite Forall_forall in H. specialize (H c X). cbn [fst snd]. destruct (v =? -1); each; split; [apply key_okb_ok; exact H|split; [constructor|split; [cbn; lia|apply dec_clean]]].
Qed.
Lemma flag_lines_ok : forall k b, key_okb (tx k) = true -> Forall line_ok (flag_line k b).
Proof. intros k b H. unfold flag_line. destruct b; each; apply lok; [auto|reflexivity|cbn; lia|apply dec_clean]. Qed.
Lemma spc_clean : forall n w m, In m metatags -> clean (spc_text n w m).
Proof.
  intros n w m M. destruct (meta_facts m M) as (_ & A & B & _). unfold spc_text. destruct (dec_word n) as (_ & _ & F). split; [apply (edge_app _ _ F)|].
  split; intro H; apply in_app_iff in H; (destruct H as [H | [H | H]]; [apply dec_no in H; auto; lia|lia|]); apply in_app_iff in H; (destruct H as [H | H]; [apply dec_no in H; auto; lia|auto]).
Qed.
Lemma session_lines_ok : forall s, ses_wf s -> spc_good s -> Forall line_ok (session_lines s).
Proof.
  intros s W G. unfold session_lines. repeat (apply Forall_app; split).
  - each; ok; try apply dec_clean; try apply (w_sname s W); [apply or_none_clean; apply firstn_clean; apply (w_scomments s W)|].
    destruct (w_method s W) as [<- | [<- | [<- | []]]]; apply cleanb; reflexivity.
  - destruct (s_cra s =? 0); each. ok. apply dec_clean.
  - destruct (s_beam s =? -1); each. ok. apply dec_clean.
  - destruct G as [(A & B & C) | (A & B & C)]; [rewrite A; constructor|]. destruct (_ || _); each. ok. apply spc_clean. auto.
  - apply mib_lines_ok. repeat constructor.
  - apply mib_lines_ok. repeat constructor.
  - apply flag_lines_ok. reflexivity.
  - apply flag_lines_ok. reflexivity.
  - apply flag_lines_ok. reflexivity.
  - apply flag_lines_ok. reflexivity.
Qed.
Lemma project_lines_ok : forall j, proj_wf j -> spc_good (j_ses j) -> Forall line_ok (project_lines j).
Proof.
  intros j W G. unfold project_lines. apply Forall_app. split; [|apply Forall_app; split].
  - each; ok; try apply dec_clean; [apply (w_piname j W)|apply (w_pid j W)|apply (w_pname j W)|apply or_none_clean; apply firstn_clean; apply (w_pcomments j W)].
  - apply session_lines_ok; auto. apply (w_ses j W).
  - apply fl. intros x X. apply number_in in X. apply obs_lines_ok. pose proof (w_obs _ (w_ses j W)) as F. rewrite Forall_forall in F. apply F. tauto.
Qed.

(** *** The whole *)
Lemma project_run : forall j, proj_wf j -> spc_good (j_ses j) -> Forall obs_good (s_obs (j_ses j)) ->
  exists st t, run_items (project_lines j) st0 = inr st /\ finish st = inr (mkSt (back j) t []).
Proof.
  intros j W G F. unfold project_lines. cbn [app]. item. item. item. item. item. rewrite session_run; [|apply (w_ses j W)|auto|reflexivity]. rewrite fold_none.
  match goal with |- context[mkSt (with_ses ?p ?s) ?t ?u] => set (jj := with_ses p s) end. cbn [st0 q_temp q_steps].
  destruct (obs_all_run (s_obs (j_ses j)) 1 (mkSt jj temp0 []) jj temp0) as (st & t & A & B).
  - lia.
  - apply (w_obs _ (w_ses j W)).
  - auto.
  - repeat split.
  - reflexivity.
  - exists st, t. split; [exact A|]. rewrite B. reflexivity.
Qed.
Theorem parse_lines : forall j, proj_wf j -> spc_good (j_ses j) -> Forall obs_good (s_obs (j_ses j)) ->
  parse_sdf (flat_map text_of (project_lines j)) = inr (back j).
Proof.
  intros j W G F. unfold parse_sdf. change (map (fun c => if c =? 13 then 10 else c) (flat_map text_of (project_lines j))) with (map cr (flat_map text_of (project_lines j))).
  rewrite run_file by (apply project_lines_ok; auto). destruct (project_run j W G F) as (st & t & A & B). rewrite A, B. reflexivity.
Qed.
