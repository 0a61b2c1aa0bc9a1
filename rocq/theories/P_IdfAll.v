(** Lemmas about interferometer definition files: the whole file. *)
From Coq Require Import Ascii String.
From Coq Require Import List ZArith Bool Lia QArith Qround Qabs Lqa.
From Verif Require Import M_Str P_Str P_Bar M_Sdf S_Sdf P_Sdf P_SdfRun P_SdfObs P_SdfAll P_SdfBack M_Idf S_Idf P_Idf.
Import ListNotations.
Open Scope Z_scope.
Ltac Zify.zify_post_hook ::= Z.div_mod_to_equations.

(** *** The scan object *)
Lemma intent_put : forall s, known_intent s -> put_intent s = inr s.
Proof. intros s [<- | [<- | [<- | [<- | []]]]]; reflexivity. Qed.
Lemma radec_back : forall ra de, coord_ok true ra de -> radec_ok (decimals 9 ra) (decimals 9 de) = true.
Proof.
  intros ra de H. apply coord_back in H. destruct H as (A & B & C & D). unfold radec_ok.
  rewrite (proj2 (Qle_bool_iff _ _) A), (proj2 (Qle_bool_iff _ _) C), (proj2 (Qle_bool_iff _ _) D). cbn [negb orb]. rewrite andb_true_r.
  destruct (Qle_bool 24 (decimals 9 ra)) eqn:E; auto. apply Qle_bool_iff in E. exfalso. apply (Qlt_not_le _ _ B). exact E.
Qed.
Lemma make_back : forall l i pm, Forall apc_wf l -> make_apcs (numbered i (back_alts pm l)) = inr (back_alts pm l).
Proof.
  induction l as [|a l IH]; intros i pm H; [reflexivity|]. inversion H; subst. cbn [back_alts numbered make_apcs b_apc]. unfold make_apc. cbn [a_target a_intent a_ra a_dec a_pm].
  rewrite intent_put by apply (w_aintent a H2). rewrite radec_back by apply (w_acoord a H2). rewrite IH by auto. reflexivity.
Qed.
Lemma numbered_length : forall l i, length (numbered i l) = length l.
Proof. induction l as [|a l IH]; intro i; cbn; auto. Qed.
Lemma back_alts_length : forall l pm, length (back_alts pm l) = length l.
Proof. induction l as [|a l IH]; intro i; cbn; auto. Qed.
Lemma create_back : forall i o t, scan_wf o -> create_scan (temp_of i o t) (numbered 1 (back_alts (0%Q, 0%Q) (n_alts o))) = back_scan (v_kept t) o.
Proof.
  intros i o t W. unfold create_scan, temp_of. cbn [v_kept v_mjd v_mpm v_dur v_intent v_mode v_ra v_dec v_target v_comments v_f1 v_f2 v_filter].
  unfold norm_start. pose proof (w_nmpm o W) as M. rewrite Z.div_small, Z.mod_small, Z.add_0_r by auto.
  rewrite numbered_length, back_alts_length, make_back by apply (w_nalts o W). rewrite intent_put by apply (w_nintent o W).
  assert (N : (kp_nalt (after (v_kept t) o) =? Z.of_nat (length (n_alts o))) = match n_alts o with [] => kp_nalt (v_kept t) =? 0 | _ => true end).
  { unfold after. cbn [kp_nalt]. destruct (n_alts o); [reflexivity|]. apply Z.eqb_refl. }
  rewrite N. clear N. unfold back_scan. set (k := after (v_kept t) o). pose proof (w_nto o W) as T.
  destruct (n_to o) as [ra de pm| |]; cbn [to_text].
  - change (str_eqb (tx "TRK_RADEC") (tx "TRK_RADEC")) with true. cbv iota. rewrite radec_back by auto. cbn [negb]. destruct (n_alts o); [|reflexivity]. destruct (kp_nalt (v_kept t)); reflexivity.
  - change (str_eqb (tx "TRK_SOL") (tx "TRK_RADEC")) with false. change (str_eqb (tx "TRK_SOL") (tx "TRK_SOL")) with true. cbv iota. change (radec_ok 0 0) with true. cbn [negb]. destruct (n_alts o); [|reflexivity]. destruct (kp_nalt (v_kept t)); reflexivity.
  - change (str_eqb (tx "TRK_JOV") (tx "TRK_RADEC")) with false. change (str_eqb (tx "TRK_JOV") (tx "TRK_SOL")) with false. change (str_eqb (tx "TRK_JOV") (tx "TRK_JOV")) with true. cbv iota. change (radec_ok 0 0) with true. cbn [negb]. destruct (n_alts o); [|reflexivity]. destruct (kp_nalt (v_kept t)); reflexivity.
Qed.

(** *** All scans *)
Definition fin (x : exn + istate) : exn + iproj :=
  match x with inl e => inl e | inr st => match finish_scan st with inl e => inl e | inr st' => inr (z_proj st') end end.
Lemma scan_run : forall i o rest st, (v_id (z_temp st) = 0 -> z_alts st = []) ->
  irun_items (scan_lines (i, o) ++ rest) st = match finish_scan st with
    | inl e => inl e
    | inr st1 => irun_items rest (mkIs (z_proj st1) (temp_of i o (z_temp st1)) (numbered 1 (back_alts (0%Q, 0%Q) (n_alts o))))
    end.
Proof.
  intros i o rest st H. assert (E : scan_lines (i, o) = L "SCAN_ID" [] (dec i) :: tl (scan_lines (i, o))) by reflexivity.
  rewrite E. cbn [app]. cbn [irun_items l_key l_ids l_val L]. ikw. cbn [iapply].
  assert (A : forall st1, finish_scan st = inr st1 -> z_alts st1 = []).
  { intros st1 F. unfold finish_scan in F. destruct (Z.eqb_spec (v_id (z_temp st)) 0); [injection F as <-; auto|]. destruct (create_scan _ _); [discriminate|]. injection F as <-. reflexivity. }
  destruct (finish_scan st) as [e|st1]; [reflexivity|]. unfold with_int. rewrite parse_dec. unfold on_stemp. specialize (A st1 eq_refl). rewrite A.
  rewrite scan_tail_run. reflexivity.
Qed.
Lemma app_scans : forall r a b, with_scans (with_scans r a) b = with_scans r b.
Proof. reflexivity. Qed.
Lemma scans_run : forall l i st, 1 <= i -> (v_id (z_temp st) = 0 -> z_alts st = []) -> Forall scan_wf l ->
  fin (irun_items (flat_map scan_lines (number i l)) st) = match finish_scan st with
    | inl e => inl e
    | inr st1 => match back_scans (v_kept (z_temp st1)) l with
                 | inl e => inl e
                 | inr os => inr (with_run (z_proj st1) (with_scans (i_run (z_proj st1)) (r_scans (i_run (z_proj st1)) ++ os)))
                 end
    end.
Proof.
  induction l as [|o l IH]; intros i st I H W.
  - cbn [number flat_map irun_items fin]. destruct (finish_scan st) as [e|[[a b c d e [f1 f2 f3 f4 f5 f6 f7 f8 f9]] t us]]; [reflexivity|]. cbn. rewrite app_nil_r. reflexivity.
  - inversion W; subst. cbn [number flat_map]. rewrite scan_run by auto. destruct (finish_scan st) as [e|st1]; [reflexivity|].
    set (st2 := mkIs (z_proj st1) (temp_of i o (z_temp st1)) (numbered 1 (back_alts (0%Q, 0%Q) (n_alts o)))).
    rewrite (IH (i + 1) st2) by (auto; try lia; cbn; lia).
    assert (F : finish_scan st2 = match back_scan (v_kept (z_temp st1)) o with
                | inl e => inl e
                | inr b => inr (mkIs (with_run (z_proj st1) (add_scan b (i_run (z_proj st1)))) (temp_of i o (z_temp st1)) [])
                end).
    { unfold finish_scan, st2. cbn [z_temp z_alts z_proj]. cbn [temp_of v_id]. destruct (Z.eqb_spec i 0); [lia|]. fold (temp_of i o (z_temp st1)). rewrite create_back by auto. reflexivity. }
    rewrite F. cbn [back_scans]. destruct (back_scan (v_kept (z_temp st1)) o) as [e|b]; [reflexivity|]. cbn [z_temp z_proj temp_of v_kept].
    destruct (back_scans (after (v_kept (z_temp st1)) o) l) as [e|os]; [reflexivity|]. f_equal. unfold add_scan. cbn [with_run i_run with_scans r_scans]. unfold with_run, with_scans. cbn. rewrite <- app_assoc. reflexivity.
Qed.

(** *** The head of the file *)
Lemma stations_put : forall l acc, Forall (fun s => In s [tx "VL"; tx "SV"; tx "NA"; tx "OV"]) l -> pick_stations l acc = acc ++ l.
Proof.
  induction l as [|s l IH]; intros acc H; cbn [pick_stations]; [rewrite app_nil_r; reflexivity|]. inversion H; subst.
  assert (E : strip s = s /\ str_eqb (lower s) (tx "all") = false /\ existsb (str_eqb s) plus_ids = true) by (destruct H2 as [<- | [<- | [<- | [<- | []]]]]; vm_compute; auto).
  destruct E as (-> & -> & ->). rewrite IH by auto. rewrite <- app_assoc. reflexivity.
Qed.
Lemma put_stations_join : forall l r, (2 <= length l)%nat -> Forall (fun s => In s [tx "VL"; tx "SV"; tx "NA"; tx "OV"]) l ->
  put_stations (join 44 l) r = inr (mkRun (r_id r) (r_name r) (r_comments r) (r_method r) (r_channels r) (r_inttime r) (r_basis r) l (r_scans r)).
Proof.
  intros l r N F. unfold put_stations. rewrite split_join.
  - rewrite stations_put by auto. cbn [app]. destruct (Nat.ltb_spec (length l) 2); [lia|reflexivity].
  - destruct l; [cbn in N; lia|discriminate].
  - revert F. apply Forall_impl. intros s [<- | [<- | [<- | [<- | []]]]]; cbn; intuition lia.
Qed.
Lemma put_channels_ok : forall n r, 16 <= n <= 32768 /\ Z.even n = true ->
  put_channels n r = inr (mkRun (r_id r) (r_name r) (r_comments r) (r_method r) n (r_inttime r) (r_basis r) (r_stations r) (r_scans r)).
Proof.
  intros n r [[A B] C]. unfold put_channels. destruct (Z.ltb_spec n 16); [lia|]. destruct (Z.ltb_spec 32768 n); [lia|]. rewrite Zmod_even, C. reflexivity.
Qed.
Lemma put_inttime_ok : forall q r, (1 # 10 <= q /\ q <= 10)%Q ->
  put_inttime (decimals 3 q) r = inr (mkRun (r_id r) (r_name r) (r_comments r) (r_method r) (r_channels r) (decimals 3 q) (r_basis r) (r_stations r) (r_scans r)).
Proof.
  intros q r [A B]. unfold put_inttime.
  assert (C : (1 # 10 <= decimals 3 q)%Q).
  { unfold decimals. assert (Z0 : (0 <= q)%Q) by lra. rewrite (proj2 (Qle_bool_iff 0 q) Z0). unfold Qle. cbn [Qnum Qden]. change (10 ^ Z.of_nat 3) with 1000. change (Z.pos (Z.to_pos 1000)) with 1000.
    assert (100 <= half_even (q * inject_Z 1000)); [|lia]. pose proof (half_even_near (q * inject_Z 1000)) as H. apply Qabs_Qle_condition in H. destruct H as [H _].
    change (inject_Z 1000) with 1000%Q in *.
    assert (G : (inject_Z 99 < inject_Z (half_even (q * 1000)))%Q). { change (inject_Z 99) with 99%Q. lra. }
    rewrite <- Zlt_Qlt in G. lia. }
  assert (D : (decimals 3 q <= 10)%Q) by (apply (decimals_le 3 q 10); [lia|exact B]).
  rewrite (proj2 (Qle_bool_iff _ _) C), (proj2 (Qle_bool_iff _ _) D). reflexivity.
Qed.
Lemma letters_lower : forall v w, letters_of v w -> Forall (fun c => 97 <= c <= 122) w -> lower v = w.
Proof.
  intros v w H. induction H as [|x y v w E H IH]; intro F; [reflexivity|]. inversion F; subst. unfold lower in *. cbn [map]. rewrite IH by auto. f_equal.
  destruct E as [-> | [A ->]].
  - destruct (Z.leb_spec 65 y), (Z.leb_spec y 90); cbn; lia.
  - destruct (Z.leb_spec 65 (y - 32)), (Z.leb_spec (y - 32) 90); cbn; lia.
Qed.
Lemma basis_known : forall v, (exists b, In b [tx "linear"; tx "circular"; tx "stokes"] /\ letters_of v b) -> existsb (str_eqb (lower v)) bases = true /\ clean v.
Proof.
  intros v (b & B & L). assert (F : Forall (fun c => 97 <= c <= 122) b). { destruct B as [<- | [<- | [<- | []]]]; repeat constructor; cbn; lia. }
  split; [rewrite (letters_lower v b L F); destruct B as [<- | [<- | [<- | []]]]; reflexivity|].
  assert (S : Forall (fun c => 65 <= c <= 122) v). { clear B. induction L as [|x y v w E H IH]; [constructor|]. inversion F; subst. constructor; auto. destruct E as [-> | [A ->]]; lia. }
  assert (N : v <> []) by (destruct B as [<- | [<- | [<- | []]]]; inversion L; discriminate).
  destruct v as [|c v]; [contradiction|]. split; [|split].
  - apply Forall_inv in S. apply not_true_iff_false. unfold is_space. intro X. rewrite ?orb_true_iff, ?andb_true_iff, ?Z.eqb_eq, ?Z.leb_le in X. lia.
  - intro X. rewrite Forall_forall in S. apply S in X. lia.
  - intro X. rewrite Forall_forall in S. apply S in X. lia.
Qed.
Lemma return_put : forall m r, In m [tx "UCF"; tx "DRSU"; tx "USB Harddrives"] ->
  put_return (tx "Requested data return method is " ++ m) r = mkRun (r_id r) (r_name r) (r_comments r) m (r_channels r) (r_inttime r) (r_basis r) (r_stations r) (r_scans r).
Proof. intros m r [<- | [<- | [<- | []]]]; reflexivity. Qed.
Ltac irec := unfold with_run, run_set; cbn [z_proj z_temp z_alts with_run i_pi i_piname i_id i_name i_comments i_run run_set r_id r_name r_comments r_method r_channels r_inttime r_basis r_stations r_scans].
Lemma head_run : forall j rest, iproj_wf j ->
  irun_items (iproj_lines (with_run j (with_scans (i_run j) [])) ++ rest) is0 = irun_items rest (mkIs (back_iproj j []) stemp0 []).
Proof.
  intros j rest W. pose proof (w_irun j W) as R. unfold iproj_lines, run_lines_of, with_run, with_scans. cbn [ i_run r_scans number flat_map i_pi i_piname i_id i_name i_comments r_id r_name r_comments r_method r_channels r_inttime r_basis r_stations].
  rewrite (fold_none (firstn 4090 (i_comments j))), (fold_none (firstn 4090 (r_comments (i_run j)))). fold (back_remarks (i_comments j)). fold (back_remarks (r_comments (i_run j))). unfold back_iproj, back_run. generalize (back_remarks (i_comments j)) as c1. generalize (back_remarks (r_comments (i_run j))) as c2. intros c2 c1. cbn [app].
  unfold is0, iproj0, run0.
  iitem. irec. iitem. irec. iitem. irec. iitem. irec. iitem. irec. iitem. irec. iitem. irec.
  iitem. irec. rewrite put_stations_join by apply (w_rstations _ R). cbv iota. irec.
  iitem. irec. rewrite put_channels_ok by apply (w_rchannels _ R). cbv iota. irec.
  iitem. irec. rewrite put_inttime_ok by apply (w_rinttime _ R). cbv iota. irec.
  iitem. irec. unfold put_basis at 1. rewrite (proj1 (basis_known _ (w_rbasis _ R))). cbv iota. irec.
  iitem. irec. iitem. irec. rewrite return_put by apply (w_rmethod _ R). irec. reflexivity.
Qed.
Lemma lines_split : forall j, iproj_lines j = iproj_lines (with_run j (with_scans (i_run j) [])) ++ flat_map scan_lines (number 1 (r_scans (i_run j))).
Proof. intro j. unfold iproj_lines, run_lines_of. cbn [with_run with_scans i_run r_scans number flat_map i_pi i_piname i_id i_name i_comments r_id r_name r_comments r_method r_channels r_inttime r_basis r_stations app]. reflexivity. Qed.

(** *** Well-formed lines *)
Lemma intent_clean : forall s, known_intent s -> clean s.
Proof. intros s [<- | [<- | [<- | [<- | []]]]]; apply cleanb; reflexivity. Qed.
Lemma alt_lines_ok : forall x, 1 <= fst x -> apc_wf (snd x) -> Forall line_ok (alt_lines x).
Proof.
  intros [i a] I W. cbn in I, W. unfold alt_lines. apply Forall_app. split.
  - each; ok; try (apply fix_clean; lia); [apply (w_atarget a W)|apply intent_clean; apply (w_aintent a W)].
  - destruct (moving (a_pm a)); each; ok; apply fix_clean; lia.
Qed.
Lemma scan_lines_ok : forall x, scan_wf (snd x) -> Forall line_ok (scan_lines x).
Proof.
  intros [i o] W. cbn in W. unfold scan_lines. repeat (apply Forall_app; split).
  - each; ok; try apply dec_clean; [apply (w_ntarget o W)|apply intent_clean; apply (w_nintent o W)| |destruct (n_to o); apply cleanb; reflexivity].
    apply or_none_clean. apply firstn_clean. unfold remarks. pose proof (w_ncomments o W) as C. destruct (n_comments o); [auto|left; reflexivity].
  - unfold to_lines. destruct (n_to o) as [ra de pm| |]; [|constructor..]. apply Forall_app. split; [each; ok; apply fix_clean; lia|]. destruct (moving pm); each; ok; apply fix_clean; lia.
  - each; ok; apply dec_clean.
  - pose proof (w_nalts o W) as A. destruct (n_alts o) as [|a l]; [constructor|]. constructor; [ok; apply dec_clean|]. apply fl. intros x X. apply number_in in X. apply alt_lines_ok; [tauto|]. rewrite Forall_forall in A. apply A. tauto.
  - destruct (n_asp o =? -1); each; ok; apply dec_clean.
  - destruct (n_gain o =? -1); each; ok; apply dec_clean.
Qed.
Lemma stations_clean : forall l, (2 <= length l)%nat -> Forall (fun s => In s [tx "VL"; tx "SV"; tx "NA"; tx "OV"]) l -> clean (join 44 l).
Proof.
  assert (G : forall l c, Forall (fun s => In s [tx "VL"; tx "SV"; tx "NA"; tx "OV"]) l -> c = 10 \/ c = 13 -> ~ In c (join 44 l)).
  { induction l as [|s l IH]; intros c H C; [cbn; tauto|]. inversion H; subst. assert (S : ~ In c s) by (destruct H2 as [<- | [<- | [<- | [<- | []]]]]; cbn; lia).
    destruct l as [|s2 l]; [exact S|]. change (join 44 (s :: s2 :: l)) with (s ++ 44 :: join 44 (s2 :: l)). intro X. apply in_app_iff in X. destruct X as [X | [X | X]]; [auto|lia|]. apply (IH c); auto. }
  intros l N F. split; [|split; apply G; auto]. destruct l as [|s [|s2 l]]; cbn in N; try lia. change (join 44 (s :: s2 :: l)) with (s ++ 44 :: join 44 (s2 :: l)). inversion F; subst. destruct H1 as [<- | [<- | [<- | [<- | []]]]]; reflexivity.
Qed.
Lemma iproj_lines_ok : forall j, iproj_wf j -> Forall line_ok (iproj_lines j).
Proof.
  intros j W. pose proof (w_irun j W) as R. unfold iproj_lines, run_lines_of. apply Forall_app. split; [|apply Forall_app; split].
  - each; ok; try apply dec_clean; [apply (w_ipiname j W)|apply (w_iid j W)|apply (w_iname j W)|apply or_none_clean; apply firstn_clean; apply (w_icomments j W)].
  - each; ok; try apply dec_clean; try (apply fix_clean; lia).
    + apply (w_rname _ R).
    + apply stations_clean; apply (w_rstations _ R).
    + apply basis_known. apply (w_rbasis _ R).
    + apply or_none_clean; apply firstn_clean; apply (w_rcomments _ R).
    + destruct (w_rmethod _ R) as [<- | [<- | [<- | []]]]; apply cleanb; reflexivity.
  - apply fl. intros x X. apply number_in in X. apply scan_lines_ok. pose proof (w_rscans _ R) as F. rewrite Forall_forall in F. apply F. tauto.
Qed.
Lemma parse_lines_idf : forall j, iproj_wf j -> parse_idf (flat_map text_of (iproj_lines j)) = back_idf j.
Proof.
  intros j W. unfold parse_idf. change (map (fun c => if c =? 13 then 10 else c) (flat_map text_of (iproj_lines j))) with (map cr (flat_map text_of (iproj_lines j))).
  rewrite irun_file by (apply iproj_lines_ok; auto). rewrite lines_split, head_run by auto.
  pose proof (scans_run (r_scans (i_run j)) 1 (mkIs (back_iproj j []) stemp0 [])) as S. unfold fin in S. rewrite S; [|lia|auto|apply (w_rscans _ (w_irun j W))].
  unfold finish_scan. cbn [z_temp stemp0 v_id]. change (0 =? 0) with true. cbv iota. cbn [z_proj z_temp v_kept stemp0]. unfold back_idf. change kept0 with (mkKept (0%Q, 0%Q) 0 (-1) (-1)).
  destruct (back_scans _ _) as [e|os]; reflexivity.
Qed.

(** *** Valid projects *)
Lemma insert_scan_forall : forall (P : scan -> Prop) o l, P o -> Forall P l -> Forall P (insert_scan o l).
Proof. induction l as [|c l IH]; intros A B; cbn; [auto|]. inversion B; subst. destruct (begin o <=? begin c); auto. Qed.
Lemma sort_scans_forall : forall (P : scan -> Prop) l, Forall P l -> Forall P (sort_scans l).
Proof. induction l as [|o l IH]; intro H; cbn; [constructor|]. inversion H; subst. apply insert_scan_forall; auto. Qed.
Lemma in_order_wf : forall j, iproj_wf j -> iproj_wf (in_order j).
Proof. intros j [A B C D [E F G H I K M N]]. split; auto. split; auto. cbn. apply sort_scans_forall. auto. Qed.
Theorem render_parse_idf : forall v av an j t, iproj_wf j -> render_idf v av an j = inr t -> parse_idf t = back_idf (in_order j).
Proof.
  intros v av an j t W H. unfold render_idf in H. destruct (iproj_ok v av an j) as [e|[]]; [discriminate| |discriminate]. apply inr_inj in H. subst t.
  apply parse_lines_idf. apply in_order_wf. auto.
Qed.

(** *** When everything comes back *)
Lemma no_motion_iff : forall pm, no_motion pm = false <-> moves pm.
Proof.
  intro pm. unfold no_motion, moves. rewrite <- not_true_iff_false, andb_true_iff, !Qeq_bool_iff. tauto.
Qed.
Lemma alts_copy : forall l pm, (forall a, In a l -> pm <> (0%Q, 0%Q) -> moves (a_pm a)) -> ForallOrdPairs (fun a b => moves (a_pm a) -> moves (a_pm b)) l -> back_alts pm l = map copy_apc l.
Proof.
  induction l as [|a l IH]; intros pm H O; [reflexivity|]. inversion O as [|x y F O']; subst. cbn [back_alts map]. 
  assert (E : (if no_motion (a_pm a) then pm else back_pm (a_pm a)) = copy_pm (a_pm a)).
  { unfold copy_pm. destruct (no_motion (a_pm a)) eqn:N; auto. destruct (Qeq_dec 0 0); [|exfalso; apply n; reflexivity].
    assert (D : {pm = (0%Q, 0%Q)} + {pm <> (0%Q, 0%Q)}). { destruct pm as [[a1 a2] [b1 b2]]. decide equality; decide equality; try apply Z.eq_dec; apply Pos.eq_dec. }
    destruct D as [D|D]; auto. specialize (H a (or_introl eq_refl) D). apply no_motion_iff in H. congruence. }
  rewrite E. rewrite IH; auto. intros b B N. rewrite Forall_forall in F. apply F; auto. apply no_motion_iff. destruct (no_motion (a_pm a)) eqn:M; auto. exfalso. apply N. unfold copy_pm. rewrite M. reflexivity.
Qed.
(** What is remembered can be seen in the scans before. *)
Record seen (m : kept) (o : scan) : Prop := {
  sn_pm : kp_pm m <> (0%Q, 0%Q) -> match n_to o with ToRaDec _ _ pm => moves pm | _ => True end;
  sn_alt : kp_nalt m <> 0 -> n_alts o <> [];
  sn_gain : kp_gain m <> -1 -> n_gain o <> -1;
  sn_asp : kp_asp m <> -1 -> n_asp o <> -1 }.
Lemma pm_dec : forall pm : Q * Q, {pm = (0%Q, 0%Q)} + {pm <> (0%Q, 0%Q)}.
Proof. intros [[a1 a2] [b1 b2]]. decide equality; decide equality; try apply Z.eq_dec; apply Pos.eq_dec. Qed.
Lemma seen_back : forall m o, seen m o -> ForallOrdPairs (fun a b => moves (a_pm a) -> moves (a_pm b)) (n_alts o) -> back_scan m o = inr (copy_scan o).
Proof.
  intros m o [P A G F] O. unfold back_scan, copy_scan. rewrite alts_copy by (auto; intros; congruence).
  assert (E : after m o = mkKept (match n_to o with ToRaDec _ _ pm => copy_pm pm | _ => kp_pm m end) (kp_nalt (after m o)) (n_gain o) (n_asp o)).
  { unfold after. cbn [kp_nalt]. f_equal.
    - destruct (n_to o) as [ra de pm| |]; auto. unfold copy_pm. destruct (no_motion pm) eqn:N; auto. destruct (pm_dec (kp_pm m)) as [D|D]; auto. apply P in D. apply no_motion_iff in D. congruence.
    - destruct (Z.eqb_spec (n_gain o) (-1)); auto. destruct (Z.eq_dec (kp_gain m) (-1)); [congruence|]. exfalso. apply G; auto.
    - destruct (Z.eqb_spec (n_asp o) (-1)); auto. destruct (Z.eq_dec (kp_asp m) (-1)); [congruence|]. exfalso. apply F; auto. }
  rewrite E. cbn [kp_pm kp_gain kp_asp].
  assert (T : match n_alts o, kp_nalt m with [], Zpos _ | [], Zneg _ => False | _, _ => True end).
  { destruct (n_alts o); auto. destruct (kp_nalt m); auto; apply A; auto; discriminate. }
  destruct (n_to o), (n_alts o), (kp_nalt m); try reflexivity; contradiction.
Qed.
Lemma seen_after : forall m o b, seen m b -> sets_too o b -> seen (after m o) b.
Proof.
  intros m o b [P A G F] (S1 & S2 & S3 & S4). split; unfold after; cbn [kp_pm kp_nalt kp_gain kp_asp].
  - unfold scan_moves in S1. destruct (n_to o) as [ra de pm| |]; auto. destruct (no_motion pm) eqn:N; auto. intros _. apply S1. apply no_motion_iff. auto.
  - destruct (n_alts o); auto. intros _. apply S2. discriminate.
  - destruct (Z.eqb_spec (n_gain o) (-1)); auto.
  - destruct (Z.eqb_spec (n_asp o) (-1)); auto.
Qed.
Lemma even_back : forall l m, Forall (seen m) l -> even_scans l -> back_scans m l = inr (map copy_scan l).
Proof.
  induction l as [|o l IH]; intros m S [O F]; [reflexivity|]. inversion S; inversion O as [|? ? B C]; inversion F; subst. cbn [back_scans map]. rewrite seen_back by auto. rewrite IH; [reflexivity| |split; auto].
  rewrite Forall_forall in *. intros b X. apply seen_after; auto.
Qed.
Lemma nothing_seen : forall o, seen (mkKept (0%Q, 0%Q) 0 (-1) (-1)) o.
Proof. intro o. split; cbn; congruence. Qed.
Theorem even_idf : forall j, even_scans (r_scans (i_run j)) -> back_idf j = inr (copy_idf j).
Proof. intros j E. unfold back_idf, copy_idf. rewrite even_back by (auto; apply Forall_forall; intros; apply nothing_seen). reflexivity. Qed.
