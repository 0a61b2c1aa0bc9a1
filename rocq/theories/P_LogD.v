(** Proofs about the logger: what is due arrives. *)
From Coq Require Import List ZArith Bool Lia.
From Verif Require Import M_Py M_Str P_Str M_Log S_Log P_Log.
Import ListNotations.
Open Scope Z_scope.

Definition erases (o : op) (t : sink) : Prop := exists f lv, o = EnableFile f lv true true /\ t = File f.
Definition says (h : list op) (o : op) (rs : list record) : Prop := (rs = [] /\ forall r, ~ due h o r) \/ (exists r, rs = [r] /\ due h o r).
Lemma got_core_filters h g name : Inv h g -> {passes h name} + {~ passes h name}.
Proof. intro V. destruct (open_for name g) eqn:E; [left|right]; rewrite <- (open_passes h g name V); congruence. Qed.
Lemma open_false h g name : Inv h g -> ~ passes h name -> open_for name g = false.
Proof. intros V N. apply not_true_is_false. intro E. apply N. apply (open_passes h g name V). exact E. Qed.
Lemma open_true h g name : Inv h g -> passes h name -> open_for name g = true.
Proof. intros V N. apply (open_passes h g name V). exact N. Qed.

Lemma warn_got h g o m : Inv h g -> (forall r, due h o r <-> r = mkRec 30 of_warnings m /\ capturing h = true /\ passes h of_warnings) ->
  exists rs, says h o rs /\ forall t, got t (warn m g) = got t g ++ flat_map (fun r => delivered r t g) rs.
Proof.
  intros V D. unfold warn. rewrite (V_capture _ _ V). destruct (capturing h) eqn:C.
  - destruct (got_core_filters h g of_warnings V) as [P|P].
    + exists [mkRec 30 of_warnings m]. split; [right; eexists; split; [reflexivity|apply D; auto]|]. intro t. destruct (handle_got (mkRec 30 warn_name m) t g) as [_ E]. rewrite E. cbn [c_name]. change warn_name with of_warnings. rewrite (open_true _ _ _ V P). cbn [flat_map]. rewrite app_nil_r. reflexivity.
    + exists []. split; [left; split; [reflexivity|intros r X; apply D in X; tauto]|]. intro t. destruct (handle_got (mkRec 30 warn_name m) t g) as [_ E]. rewrite E. cbn [c_name]. change warn_name with of_warnings. rewrite (open_false _ _ _ V P). reflexivity.
  - exists []. split; [left; split; [reflexivity|intros r X; apply D in X; intuition congruence]|]. intro t. cbn. rewrite app_nil_r. reflexivity.
Qed.
Lemma log_got h g n m : Inv h g -> exists rs, says h (Log n m) rs /\ forall t, got t (log n (Says m) g) = got t g ++ flat_map (fun r => delivered r t g) rs.
Proof.
  intros V. unfold log. rewrite (V_level _ _ V). set (lv := if level_in h =? 0 then 30 else level_in h).
  assert (LV : (if Z.eq_dec (level_in h) 0 then 30 <= n else level_in h <= n) <-> lv <= n) by (unfold lv; destruct (Z.eq_dec (level_in h) 0) as [E|E]; destruct (Z.eqb_spec (level_in h) 0); tauto).
  destruct (Z.leb_spec lv n) as [L|L].
  - destruct (got_core_filters h g of_lsl V) as [P|P].
    + exists [mkRec n of_lsl (Says m)]. split; [right; eexists; split; [reflexivity|]; split; [reflexivity|]; split; [apply LV; exact L|exact P]|]. intro t. destruct (handle_got (mkRec n own_name (Says m)) t g) as [_ E]. rewrite E. cbn [c_name]. change own_name with of_lsl. rewrite (open_true _ _ _ V P). cbn [flat_map]. rewrite app_nil_r. reflexivity.
    + exists []. split; [left; split; [reflexivity|intros r (_ & _ & X); contradiction]|]. intro t. destruct (handle_got (mkRec n own_name (Says m)) t g) as [_ E]. rewrite E. cbn [c_name]. change own_name with of_lsl. rewrite (open_false _ _ _ V P). reflexivity.
  - exists []. split; [left; split; [reflexivity|intros r (_ & X & _); apply LV in X; lia]|]. intro t. cbn. rewrite app_nil_r. reflexivity.
Qed.
Lemma quiet_got h g g' o : (forall t, got t g' = got t g) -> (forall r, ~ due h o r) -> exists rs, says h o rs /\ forall t, got t g' = got t g ++ flat_map (fun r => delivered r t g) rs.
Proof. intros E D. exists []. split; [left; auto|]. intro t. cbn. rewrite app_nil_r. apply E. Qed.
Lemma got_remove i g t : got t (remove_h i g) = got t g.
Proof. destruct t; reflexivity. Qed.
Lemma got_add x g t : got t (add_h x g) = got t g.
Proof. unfold add_h. destruct (existsb _ _); destruct t; reflexivity. Qed.
Lemma got_console c n g t : got t (set_console c n g) = got t g.
Proof. destruct t; reflexivity. Qed.
Lemma got_file c n g t : got t (set_file c n g) = got t g.
Proof. destruct t; reflexivity. Qed.
Lemma got_filters c n g t : got t (set_filters c n g) = got t g.
Proof. destruct t; reflexivity. Qed.

Lemma step_got h g o : Inv h g -> exists rs, says h o rs /\ forall t, ~ erases o t -> got t (step o g) = got t g ++ flat_map (fun r => delivered r t g) rs.
Proof.
  intros V. assert (W : forall g', (forall t, got t g' = got t g) -> (forall r, ~ due h o r) -> exists rs, says h o rs /\ forall t, ~ erases o t -> got t g' = got t g ++ flat_map (fun r => delivered r t g) rs).
  { intros g' E D. destruct (quiet_got h g g' o E D) as [rs [S G]]. exists rs. auto. }
  destruct o; cbn [step].
  - destruct (log_got h g level m V) as [rs [S G]]. exists rs. auto.
  - destruct (warn_got h g (Warn m) (Says m) V) as [rs [S G]]; [intro r; reflexivity|]. exists rs. auto.
  - apply W; [intros []; reflexivity|auto].
  - apply W; [intros []; reflexivity|auto].
  - apply W; [|auto]. intro t. unfold enable_console. rewrite got_add, got_console. destruct (g_console g); [apply got_remove|reflexivity].
  - apply W; [|auto]. intro t. unfold disable_console. destruct (g_console g); [rewrite got_console; apply got_remove|reflexivity].
  - set (g1 := match g_file g with Some (i, old) => remove_h i (warn (Switching old f) g) | None => g end).
    assert (G1 : exists rs, says h (EnableFile f level fresh ok) rs /\ forall t, got t g1 = got t g ++ flat_map (fun r => delivered r t g) rs).
    { unfold g1. pose proof (V_last _ _ V) as L. destruct (g_file g) as [[i old]|]; cbn in L.
      - destruct (warn_got h g (EnableFile f level fresh ok) (Switching old f) V) as [rs [S G]].
        + intro r. cbn. rewrite <- L. split; [intros [x [X Y]]; injection X as <-; exact Y|intro Y; exists old; split; [reflexivity|exact Y]].
        + exists rs. split; [exact S|]. intro t. rewrite got_remove. apply G.
      - apply quiet_got; [reflexivity|]. intros r [x [X _]]. rewrite <- L in X. discriminate. }
    destruct G1 as [rs [S G]]. exists rs. split; [exact S|]. intros t NE. unfold enable_file. fold g1. destruct ok; cbn [negb snd]; [|apply G].
    rewrite got_add, got_file, <- G. destruct fresh; [|reflexivity]. destruct t; try reflexivity. cbn. unfold upd_s. destruct (str_eqb_spec f0 f) as [->|]; [|reflexivity]. exfalso. apply NE. exists f, level. auto.
  - apply W; [|auto]. intro t. unfold disable_file. destruct (g_file g) as [[i f]|]; [rewrite got_file; apply got_remove|reflexivity].
  - apply W; [|auto]. intro t. unfold add_filter. destruct (existsb _ _); [reflexivity|apply got_filters].
  - apply W; [|auto]. intro t. unfold remove_filter. destruct (existsb _ _); [apply got_filters|reflexivity].
  - apply W; [|auto]. intro t. apply got_filters.
  - apply W; [|auto]. intro t. apply got_add.
  - apply W; [|auto]. intro t. apply got_remove.
  - apply W; [|auto]. intro t. apply got_remove.
Qed.
Lemma due_once h o r r' : due h o r -> due h o r' -> r = r'.
Proof. destruct o; cbn; try contradiction; try (intros [-> _] [-> _]; reflexivity). intros [x [X [-> _]]] [y [Y [-> _]]]. rewrite X in Y. injection Y as ->. reflexivity. Qed.
Lemma run_snoc h o g : run (h ++ [o]) g = step o (run h g).
Proof. unfold run. rewrite fold_left_app. reflexivity. Qed.
Lemma told_exists : forall l h (files : str -> list record), exists rs, told h l rs.
Proof.
  induction l as [|o l IH]; intros h files; [exists []; constructor|]. destruct (IH (h ++ [o]) files) as [rs T]. destruct (step_got h (run h (start files)) o (Inv_run h files)) as [q [[[-> N]|[r [-> D]]] _]]; [exists rs; apply Told_none|exists (r :: rs); apply Told_some]; assumption.
Qed.
Lemma told_one h o rs : told h [o] rs -> says h o rs.
Proof. intro T. inversion T; subst; match goal with H : told _ [] _ |- _ => inversion H; subst end; [right; eexists; split; [reflexivity|assumption]|left; auto]. Qed.
Lemma says_same h o a b : says h o a -> says h o b -> a = b.
Proof. intros [[-> N]|[r [-> D]]] [[-> M]|[s [-> E]]]; [reflexivity|destruct (N _ E)|destruct (M _ D)|]. rewrite (due_once _ _ _ _ D E). reflexivity. Qed.
Lemma one_step files h o rs t : says h o rs -> ~ erases o t -> got t (run (h ++ [o]) (start files)) = got t (run h (start files)) ++ flat_map (fun r => delivered r t (run h (start files))) rs.
Proof. intros S NE. rewrite run_snoc. destruct (step_got h (run h (start files)) o (Inv_run h files)) as [q [Sq G]]. rewrite (says_same _ _ _ _ S Sq). apply G. exact NE. Qed.
Lemma told_cons h o l rs : told h (o :: l) rs -> exists a b, rs = a ++ b /\ says h o a /\ told (h ++ [o]) l b.
Proof. intro T. inversion T; subst; [exists [r], rs0|exists [], rs]; (split; [reflexivity|split; [|assumption]]); [right; eexists; eauto|left; auto]. Qed.

(** *** What a place gets *)
Lemma narrow P r t : forall next hs, Forall (proper next) hs -> (forall h, proper next h -> P (h_id h) = false -> sink_eqb (h_to h) t = false) -> flat_map (writes r t) hs = flat_map (writes r t) (sel P hs).
Proof.
  induction hs as [|h hs IH]; intros F H; [reflexivity|]. pose proof (Forall_inv F) as F1. apply Forall_inv_tail in F. cbn [flat_map sel filter]. fold (sel P hs). destruct (P (h_id h)) eqn:E; cbn [flat_map]; rewrite (IH F H); [reflexivity|]. unfold writes at 1. rewrite (H h F1 E), andb_false_r. reflexivity.
Qed.
Lemma delivered_sel P h g r t : Inv h g -> t <> Stream 0 -> (forall x, proper (g_next g) x -> P (h_id x) = false -> sink_eqb (h_to x) t = false) -> delivered r t g = flat_map (writes r t) (sel P (g_handlers g)).
Proof.
  intros V N H. rewrite <- (narrow P r t (g_next g) (g_handlers g) (V_proper _ _ V) H). unfold delivered. destruct (g_handlers g) as [|x l]; [|reflexivity]. cbn [flat_map]. destruct (sink_eqb (Stream 0) t) eqn:E; [|rewrite andb_false_r; reflexivity]. apply sink_eqb_iff in E. congruence.
Qed.
Lemma to_file files h r f : delivered r (File f) (run h (start files)) = match logs_to h with Some (k, lv) => if list_eq_dec Z.eq_dec k f then if lv <=? c_level r then [r] else [] else [] | None => [] end.
Proof.
  pose proof (Inv_run h files) as V. rewrite (delivered_sel is_file h _ r (File f) V); [|discriminate|].
  - pose proof (V_file _ _ V) as K. destruct (logs_to h) as [[k lv]|]; [|rewrite K; reflexivity]. destruct K as [n [_ K]]. rewrite K. cbn [flat_map writes h_level h_to sink_eqb]. unfold writes. cbn [h_level h_to sink_eqb]. rewrite app_nil_r. destruct (str_eqb_spec k f) as [E|E]; destruct (list_eq_dec Z.eq_dec k f); try contradiction; [rewrite andb_true_r|rewrite andb_false_r]; reflexivity.
  - intros x X E. unfold proper in X. destruct (h_id x); cbn in E; try discriminate; try (destruct X as [_ [s ->]]; reflexivity); try (destruct X as [_ ->]; reflexivity). rewrite X. reflexivity.
Qed.
Lemma to_user files h r n : delivered r (User n) (run h (start files)) = if attached n h then if 0 <=? c_level r then [r] else [] else [].
Proof.
  pose proof (Inv_run h files) as V. rewrite (delivered_sel (is_user n) h _ r (User n) V); [|discriminate|].
  - rewrite (V_user _ _ V). destruct (attached n h); [|reflexivity]. cbn [flat_map]. unfold writes. cbn [h_level h_to sink_eqb]. rewrite Z.eqb_refl, app_nil_r, andb_true_r. reflexivity.
  - intros x X E. unfold proper in X. destruct (h_id x); cbn in E; try (destruct X as [_ [s ->]]; reflexivity); try (destruct X as [_ ->]; reflexivity). rewrite X. exact E.
Qed.
Lemma flat_filter (P : record -> bool) rs : flat_map (fun r => if P r then [r] else []) rs = filter P rs.
Proof. induction rs as [|r rs IH]; [reflexivity|]. cbn. destruct (P r); cbn; rewrite IH; reflexivity. Qed.
Lemma flat_none (rs : list record) : flat_map (fun _ => @nil record) rs = [].
Proof. induction rs; auto. Qed.

Lemma file_run files f lv : forall l h rs, logs_to h = Some (f, lv) -> told h l rs -> (forall o, In o l -> match o with EnableFile _ _ _ _ | DisableFile => False | _ => True end) ->
  g_files (run (h ++ l) (start files)) f = g_files (run h (start files)) f ++ filter (fun r => lv <=? c_level r) rs.
Proof.
  induction l as [|o l IH]; intros h rs L T Q.
  - inversion T; subst. rewrite !app_nil_r. reflexivity.
  - apply told_cons in T. destruct T as (a & b & -> & S & T). assert (Qo := Q o (or_introl eq_refl)).
    assert (L2 : logs_to (h ++ [o]) = Some (f, lv)) by (rewrite s_logs; destruct o; try contradiction; exact L).
    replace (h ++ o :: l) with ((h ++ [o]) ++ l) by (rewrite <- app_assoc; reflexivity). rewrite (IH (h ++ [o]) b L2 T) by (intros x X; apply Q; right; exact X).
    assert (G := one_step files h o a (File f) S). cbn [got] in G. rewrite G by (intros (x & y & -> & _); exact Qo). rewrite filter_app, app_assoc. f_equal. f_equal. rewrite <- flat_filter. apply flat_map_ext. intro r. rewrite to_file, L. destruct (list_eq_dec Z.eq_dec f f); [reflexivity|congruence].
Qed.
Lemma user_run files n : forall l h rs, attached n h = true -> ~ In (RemoveHandler n) l -> told h l rs -> g_user (run (h ++ l) (start files)) n = g_user (run h (start files)) n ++ filter (fun r => 0 <=? c_level r) rs.
Proof.
  induction l as [|o l IH]; intros h rs A N T.
  - inversion T; subst. rewrite !app_nil_r. reflexivity.
  - apply told_cons in T. destruct T as (a & b & -> & S & T).
    assert (A2 : attached n (h ++ [o]) = true). { rewrite s_attached. destruct o; try exact A; destruct (Z.eqb_spec n0 n) as [->|]; try assumption; try reflexivity. exfalso. apply N. left. reflexivity. }
    replace (h ++ o :: l) with ((h ++ [o]) ++ l) by (rewrite <- app_assoc; reflexivity). rewrite (IH (h ++ [o]) b A2) by (try assumption; intro X; apply N; right; exact X).
    assert (G := one_step files h o a (User n) S). cbn [got] in G. rewrite G by (intros (x & y & _ & X); discriminate). rewrite filter_app, app_assoc. f_equal. f_equal. rewrite <- flat_filter. apply flat_map_ext. intro r. rewrite to_user, A. reflexivity.
Qed.
Lemma other_files files h o f : (forall lv, logs_to h <> Some (f, lv)) -> (forall lv fresh ok, o <> EnableFile f lv fresh ok) -> g_files (run (h ++ [o]) (start files)) f = g_files (run h (start files)) f.
Proof.
  intros N E. destruct (step_got h (run h (start files)) o (Inv_run h files)) as [rs [S _]]. assert (G := one_step files h o rs (File f) S). cbn [got] in G. rewrite G.
  - rewrite <- (app_nil_r (g_files (run h (start files)) f)) at 2. f_equal. rewrite <- (flat_none rs). apply flat_map_ext. intro r. rewrite to_file. destruct (logs_to h) as [[k lv]|]; [|reflexivity]. destruct (list_eq_dec Z.eq_dec k f) as [->|]; [|reflexivity]. destruct (N lv eq_refl).
  - intros (k & lv & -> & X). injection X as ->. exact (E lv true true eq_refl).
Qed.
Lemma file_mode files h f level fresh rs : told h [EnableFile f level fresh true] rs ->
  g_files (run (h ++ [EnableFile f level fresh true]) (start files)) f = if fresh then [] else g_files (run h (start files)) f ++ match logs_to h with Some (k, lv) => if list_eq_dec Z.eq_dec k f then filter (fun r => lv <=? c_level r) rs else [] | None => [] end.
Proof.
  intro T. apply told_one in T. destruct fresh.
  - rewrite run_snoc. cbn [step]. unfold enable_file. cbn [negb snd]. match goal with |- g_files (add_h ?a ?b) f = _ => pose proof (got_add a b (File f)) as X; cbn [got] in X; rewrite X end. cbn. unfold upd_s. rewrite str_eqb_refl. reflexivity.
  - assert (G := one_step files h _ rs (File f) T). cbn [got] in G. rewrite G by (intros (x & y & X & _); discriminate). f_equal. destruct (logs_to h) as [[k lv]|] eqn:L.
    + destruct (list_eq_dec Z.eq_dec k f) as [E|E]; [rewrite <- flat_filter|rewrite <- (flat_none rs)]; apply flat_map_ext; intro r; rewrite to_file, L; destruct (list_eq_dec Z.eq_dec k f); try contradiction; reflexivity.
    + rewrite <- (flat_none rs). apply flat_map_ext. intro r. rewrite to_file, L. reflexivity.
Qed.
Lemma silent files h o p t : in_force p h = true -> ~ like p of_lsl -> ~ like p of_warnings -> (forall f lv ok, o = EnableFile f lv true ok -> t <> File f) -> got t (run (h ++ [o]) (start files)) = got t (run h (start files)).
Proof.
  intros F A B E. destruct (step_got h (run h (start files)) o (Inv_run h files)) as [rs [S _]]. rewrite (one_step files h o rs t S) by (intros (f & lv & -> & X); exact (E f lv true eq_refl X)).
  destruct S as [[-> _]|[r [_ D]]]; [cbn; apply app_nil_r|]. exfalso. destruct o; cbn in D; try contradiction.
  - destruct D as (_ & _ & P). apply A. apply P. exact F.
  - destruct D as (_ & _ & P). apply B. apply P. exact F.
  - destruct D as (x & _ & _ & _ & P). apply B. apply P. exact F.
Qed.
Lemma undone files h l p : in_force p h = false ->
  g_filters (run (h ++ [AddFilter p; RemoveFilter p]) (start files)) = g_filters (run h (start files)) /\
  run (h ++ [AddFilter p; AddFilter p] ++ l) (start files) = run (h ++ [AddFilter p] ++ l) (start files) /\ g_filters (run (h ++ [ClearFilters]) (start files)) = [].
Proof.
  intro N. pose proof (Inv_run h files) as V. set (g := run h (start files)) in *. assert (NI : existsb (str_eqb p) (g_active g) = false) by (apply not_true_is_false; intro X; apply existsb_in in X; apply (V_active _ _ V) in X; congruence).
  assert (DR : forall l, existsb (str_eqb p) l = false -> drop p (l ++ [p]) = l).
  { induction l0 as [|x l0 IH]; intro X; cbn; [rewrite str_eqb_refl; reflexivity|]. cbn in X. apply orb_false_iff in X. destruct X as [X1 X2]. destruct (str_eqb_spec x p) as [->|]; [rewrite str_eqb_refl in X1; discriminate|]. rewrite IH by exact X2. reflexivity. }
  assert (EX : forall l, existsb (str_eqb p) (l ++ [p]) = true) by (intro; apply existsb_in, in_or_app; right; left; reflexivity).
  split; [|split].
  - unfold run. rewrite fold_left_app. fold (run h (start files)). fold g. cbn [fold_left step]. unfold add_filter. rewrite NI. unfold remove_filter. cbn [set_filters g_active g_filters]. rewrite EX. cbn [set_filters g_filters]. rewrite (V_filters _ _ V). apply DR. exact NI.
  - unfold run. rewrite !fold_left_app. fold (run h (start files)). fold g. cbn [app fold_left step]. f_equal. unfold add_filter at 2 3. rewrite NI. unfold add_filter. cbn [set_filters g_active]. rewrite EX. reflexivity.
  - rewrite run_snoc. cbn [step]. unfold clear_filters. cbn [set_filters g_filters]. fold g. rewrite (V_filters _ _ V). rewrite <- (app_nil_r (g_active g)) at 2. apply drop_all.
Qed.
(** *** Streams *)
Definition to_streams (i : hid) : bool := is_console i || is_default i.
Lemma split_sel P Q r t : forall hs, (forall i, P i && Q i = false) -> length (flat_map (writes r t) (sel (fun i => P i || Q i) hs)) = length (flat_map (writes r t) (sel P hs) ++ flat_map (writes r t) (sel Q hs)).
Proof.
  intros hs D. induction hs as [|h hs IH]; [reflexivity|]. cbn [sel filter]. fold (sel P hs) (sel Q hs) (sel (fun i => P i || Q i) hs). specialize (D (h_id h)). destruct (P (h_id h)), (Q (h_id h)); cbn in D |- *; try discriminate; rewrite ?app_length in *; cbn; rewrite ?app_length in *; lia.
Qed.
Lemma writes_all r t : forall hs, flat_map (writes r t) hs = repeat r (length (flat_map (writes r t) hs)).
Proof. induction hs as [|h hs IH]; [reflexivity|]. cbn [flat_map]. rewrite app_length, repeat_app, <- IH. unfold writes at 1 3. destruct (_ && _); reflexivity. Qed.
Lemma split_writes P Q r t hs : (forall i, P i && Q i = false) -> flat_map (writes r t) (sel (fun i => P i || Q i) hs) = flat_map (writes r t) (sel Q hs) ++ flat_map (writes r t) (sel P hs).
Proof. intro D. rewrite (writes_all r t (sel (fun i => P i || Q i) hs)), (split_sel P Q r t hs D), app_length, Nat.add_comm, repeat_app, <- !writes_all. reflexivity. Qed.
Lemma stream_narrow r n next hs : Forall (proper next) hs -> flat_map (writes r (Stream n)) hs = flat_map (writes r (Stream n)) (sel (fun i => is_console i || is_default i) hs).
Proof.
  intro F. apply (narrow (fun i => is_console i || is_default i) r (Stream n) next hs F). intros h X E. unfold proper in X. destruct (h_id h); cbn in E; try discriminate; try (destruct X as [_ [s ->]]; reflexivity). rewrite X. reflexivity.
Qed.
Lemma to_stream files h r n : ~ In RemoveDefault h \/ n <> 0 -> delivered r (Stream n) (run h (start files)) =
  (if (n =? 0) && (0 <=? c_level r) then [r] else []) ++ match console_in h with Some (s, lv) => if (s =? n) && (lv <=? c_level r) then [r] else [] | None => [] end.
Proof.
  intro N. pose proof (Inv_run h files) as V. set (g := run h (start files)) in *.
  assert (E : delivered r (Stream n) g = flat_map (writes r (Stream n)) (g_handlers g)).
  { unfold delivered. destruct (g_handlers g) as [|x l] eqn:EH; [|reflexivity]. cbn. destruct N as [N|N].
    - pose proof (V_default _ _ V N) as D. rewrite EH in D. discriminate.
    - destruct n; try contradiction; rewrite andb_false_r; reflexivity. }
  rewrite E, (stream_narrow r n (g_next g)) by apply (V_proper _ _ V). rewrite split_writes by (intros []; reflexivity). f_equal.
  - destruct (Z.eqb_spec n 0) as [->|Nn]; cbn [andb].
    + destruct N as [N|N]; [|contradiction]. rewrite (V_default _ _ V N). cbn [flat_map]. unfold writes. cbn [h_level h_to sink_eqb Z.eqb]. rewrite andb_true_r, app_nil_r. reflexivity.
    + assert (G : forall hs, Forall (proper (g_next g)) hs -> flat_map (writes r (Stream n)) (sel is_default hs) = []).
      { induction hs as [|x hs IH]; intro F; [reflexivity|]. pose proof (Forall_inv F) as F1. apply Forall_inv_tail in F. cbn [sel filter]. fold (sel is_default hs). destruct (is_default (h_id x)) eqn:Dx; [|auto]. cbn [flat_map]. rewrite IH by exact F. unfold proper in F1. destruct (h_id x); try discriminate. destruct F1 as [_ F1]. unfold writes. rewrite F1. cbn [sink_eqb]. destruct n; try contradiction; rewrite andb_false_r; reflexivity. }
      apply G. apply (V_proper _ _ V).
  - pose proof (V_console _ _ V) as L. destruct (console_in h) as [[s lv]|]; [|destruct L as [_ ->]; reflexivity]. destruct L as [k [_ [_ ->]]]. cbn [flat_map]. unfold writes. cbn [h_level h_to sink_eqb]. rewrite app_nil_r, andb_comm. reflexivity.
Qed.
Lemma stderr_copies files h o rs : ~ In RemoveDefault h -> told h [o] rs -> g_streams (run (h ++ [o]) (start files)) 0 = g_streams (run h (start files)) 0 ++
    flat_map (fun r => (if 0 <=? c_level r then [r] else []) ++ match console_in h with Some (s, lv) => if (s =? 0) && (lv <=? c_level r) then [r] else [] | None => [] end) rs.
Proof.
  intros N T. apply told_one in T. assert (G := one_step files h o rs (Stream 0) T). cbn [got] in G. rewrite G by (intros (x & y & _ & X); discriminate). f_equal. apply flat_map_ext. intro r. rewrite to_stream by (left; exact N). reflexivity.
Qed.
Lemma stream_copies files h o s rs : s <> 0 -> told h [o] rs -> g_streams (run (h ++ [o]) (start files)) s = g_streams (run h (start files)) s ++ match console_in h with Some (k, lv) => if k =? s then filter (fun r => lv <=? c_level r) rs else [] | None => [] end.
Proof.
  intros N T. apply told_one in T. assert (G := one_step files h o rs (Stream s) T). cbn [got] in G. rewrite G by (intros (x & y & _ & X); discriminate). f_equal.
  assert (Ns : (s =? 0) = false) by (apply Z.eqb_neq; exact N). destruct (console_in h) as [[k lv]|] eqn:C.
  - destruct (k =? s) eqn:E; [rewrite <- flat_filter|rewrite <- (flat_none rs)]; apply flat_map_ext; intro r; rewrite to_stream by (right; exact N); rewrite Ns, C, E; reflexivity.
  - rewrite <- (flat_none rs). apply flat_map_ext. intro r. rewrite to_stream by (right; exact N). rewrite Ns, C. reflexivity.
Qed.
Lemma detached files h o n : attached n h = false -> g_user (run (h ++ [o]) (start files)) n = g_user (run h (start files)) n.
Proof.
  intro A. destruct (step_got h (run h (start files)) o (Inv_run h files)) as [rs [S _]]. assert (G := one_step files h o rs (User n) S). cbn [got] in G. rewrite G by (intros (x & y & _ & X); discriminate). rewrite <- (app_nil_r (g_user (run h (start files)) n)) at 2. f_equal. rewrite <- (flat_none rs). apply flat_map_ext. intro r. rewrite to_user, A. reflexivity.
Qed.
