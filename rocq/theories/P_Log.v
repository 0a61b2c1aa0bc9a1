(** Proofs about the logger. *)
From Coq Require Import List ZArith Bool Lia.
From Verif Require Import M_Py M_Str P_Str M_Log S_Log.
Import ListNotations.
Open Scope Z_scope.

(** ** Patterns *)
Lemma fnmatch_like : forall p s, fnmatch p s = true <-> like p s.
Proof.
  induction p as [|c p IH]; intro s.
  - cbn. split; intro H; [destruct s; [constructor|discriminate]|inversion H; reflexivity].
  - cbn [fnmatch]. destruct (Z.eqb_spec c 42) as [->|N42].
    + set (star := fix star (s : str) : bool := fnmatch p s || match s with [] => false | _ :: s0 => star s0 end).
      assert (E : forall s, star s = fnmatch p s || match s with [] => false | _ :: s0 => star s0 end) by (intros [|? ?]; reflexivity).
      split.
      * revert s. induction s as [|x s IHs]; rewrite E; intro H; apply orb_true_iff in H; destruct H as [H|H]; try discriminate.
        -- apply IH in H. exact (Like_star p [] [] H).
        -- apply IH in H. exact (Like_star p [] (x :: s) H).
        -- specialize (IHs H). inversion IHs; subst; [|contradiction]. exact (Like_star p (x :: a) s0 H1).
      * intro H. inversion H as [|p0 a s0 H2| |]; subst; [|contradiction]. clear H. apply IH in H2. induction a as [|x a IHa]; cbn [app]; rewrite E; [rewrite H2; reflexivity|]. rewrite IHa. apply orb_true_r.
    + split.
      * destruct s as [|x s]; [discriminate|]. intro H. apply andb_prop in H. destruct H as [H1 H2]. apply IH in H2. apply orb_prop in H1. destruct H1 as [H1|H1]; apply Z.eqb_eq in H1; subst; [constructor; exact H2|].
        destruct (Z.eq_dec c 63) as [->|N]; constructor; assumption.
      * intro H. inversion H; subst; try contradiction; cbn; [|rewrite Z.eqb_refl, orb_true_r]; apply IH; assumption.
Qed.

(** ** What is written *)
Definition core (g : logger) : logger := with_out (fun _ => []) (fun _ => []) (fun _ => []) g.
Definition sink_eqb (a b : sink) : bool := match a, b with Stream n, Stream m => n =? m | File f, File k => str_eqb f k | User n, User m => n =? m | _, _ => false end.
Lemma sink_eqb_iff a b : sink_eqb a b = true <-> a = b.
Proof.
  destruct a, b; cbn; split; intro H; try discriminate; try (injection H as ->); rewrite ?Z.eqb_eq in *; subst; try reflexivity; try apply Z.eqb_refl.
  - f_equal. destruct (str_eqb_spec f f0); [assumption|discriminate].
  - apply str_eqb_refl.
Qed.
Lemma core_put r s g : core (put_record r s g) = core g.
Proof. destruct s; reflexivity. Qed.
Lemma got_put r s t g : got t (put_record r s g) = got t g ++ (if sink_eqb s t then [r] else []).
Proof.
  destruct s, t; cbn; unfold upd_z, upd_s; rewrite ?app_nil_r; try reflexivity.
  - rewrite Z.eqb_sym. destruct (n =? n0); rewrite ?app_nil_r; reflexivity.
  - destruct (str_eqb_spec f0 f) as [->|N]; [rewrite str_eqb_refl; reflexivity|]. destruct (str_eqb_spec f f0); [congruence|]. rewrite app_nil_r. reflexivity.
  - rewrite Z.eqb_sym. destruct (n =? n0); rewrite ?app_nil_r; reflexivity.
Qed.
Definition writes (r : record) (t : sink) (h : handler) : list record := if (h_level h <=? c_level r) && sink_eqb (h_to h) t then [r] else [].
Lemma fold_emit r t : forall hs g, core (fold_left (fun g h => emit r h g) hs g) = core g /\ got t (fold_left (fun g h => emit r h g) hs g) = got t g ++ flat_map (writes r t) hs.
Proof.
  induction hs as [|h hs IH]; intro g; cbn [fold_left flat_map]; [rewrite app_nil_r; auto|]. destruct (IH (emit r h g)) as [C G]. rewrite C, G. unfold emit, writes. destruct (h_level h <=? c_level r); cbn [andb]; [|auto].
  rewrite core_put, got_put, <- app_assoc. auto.
Qed.
Definition delivered (r : record) (t : sink) (g : logger) : list record :=
  match g_handlers g with [] => if (30 <=? c_level r) && sink_eqb (Stream 0) t then [r] else [] | hs => flat_map (writes r t) hs end.
Lemma call_got r t g : core (call_handlers r g) = core g /\ got t (call_handlers r g) = got t g ++ delivered r t g.
Proof.
  unfold call_handlers, delivered. destruct (g_handlers g) as [|h hs]; [|apply fold_emit]. destruct (30 <=? c_level r); cbn [andb]; [rewrite core_put, got_put; auto|rewrite app_nil_r; auto].
Qed.
Definition open_for (name : str) (g : logger) : bool := forallb (fun p => fnmatch p name) (g_filters g).
Lemma handle_got r t g : core (handle r g) = core g /\ got t (handle r g) = got t g ++ (if open_for (c_name r) g then delivered r t g else []).
Proof. unfold handle, open_for. destruct (forallb _ _); [apply call_got|rewrite app_nil_r; auto]. Qed.

(** ** The handlers *)
Lemma hid_eqb_iff a b : hid_eqb a b = true <-> a = b.
Proof. destruct a, b; cbn; split; intro H; try discriminate; try (injection H as ->); rewrite ?Z.eqb_eq in *; subst; try reflexivity; apply Z.eqb_refl. Qed.
Definition sel (P : hid -> bool) (l : list handler) : list handler := filter (fun h => P (h_id h)) l.
Lemma sel_without_other P i : forall l, P i = false -> sel P (without i l) = sel P l.
Proof.
  intros l H. induction l as [|h l IH]; [reflexivity|]. cbn [without]. destruct (hid_eqb (h_id h) i) eqn:E; cbn [sel filter]; [apply hid_eqb_iff in E; rewrite E, H; reflexivity|]. fold (sel P (without i l)). fold (sel P l). rewrite IH. reflexivity.
Qed.
Lemma sel_without P i : forall l, P i = true -> sel P (without i l) = without i (sel P l).
Proof.
  intros l H. induction l as [|h l IH]; [reflexivity|]. cbn [without sel filter]. fold (sel P l). destruct (hid_eqb (h_id h) i) eqn:E.
  - pose proof E as E2. apply hid_eqb_iff in E2. rewrite E2, H. cbn [without]. rewrite E. reflexivity.
  - cbn [sel filter]. fold (sel P (without i l)). destruct (P (h_id h)); [cbn [without]; rewrite E|]; rewrite IH; reflexivity.
Qed.
Lemma in_without i h : forall l, In h (without i l) -> In h l.
Proof. induction l as [|x l IH]; [auto|]. cbn. destruct (hid_eqb (h_id x) i); cbn; intuition. Qed.
Definition is_file (i : hid) : bool := match i with HFile _ => true | _ => false end.
Definition is_console (i : hid) : bool := match i with HConsole _ => true | _ => false end.
Definition is_default (i : hid) : bool := match i with HDefault => true | _ => false end.
Definition is_user (n : Z) (i : hid) : bool := match i with HUser m => m =? n | _ => false end.
Definition proper (next : Z) (h : handler) : Prop :=
  match h_id h with
  | HDefault => h_level h = 0 /\ h_to h = Stream 0
  | HConsole n => n < next /\ exists s, h_to h = Stream s
  | HFile n => n < next /\ exists f, h_to h = File f
  | HUser n => h_to h = User n
  end.

Record Inv (h : list op) (g : logger) : Prop := {
  V_level : g_level g = level_in h;
  V_capture : g_capture g = capturing h;
  V_filters : g_filters g = g_active g;
  V_once : NoDup (g_active g);
  V_active : forall p, In p (g_active g) <-> in_force p h = true;
  V_proper : Forall (proper (g_next g)) (g_handlers g);
  V_last : option_map snd (g_file g) = last_file h;
  V_fid : forall i f, g_file g = Some (i, f) -> exists n, i = HFile n /\ n < g_next g;
  V_file : match logs_to h with
           | Some (f, lv) => exists n, g_file g = Some (HFile n, f) /\ sel is_file (g_handlers g) = [mkH (HFile n) lv (File f)]
           | None => sel is_file (g_handlers g) = []
           end;
  V_console : match console_in h with
              | Some (s, lv) => exists n, n < g_next g /\ g_console g = Some (HConsole n) /\ sel is_console (g_handlers g) = [mkH (HConsole n) lv (Stream s)]
              | None => g_console g = None /\ sel is_console (g_handlers g) = []
              end;
  V_user : forall n, sel (is_user n) (g_handlers g) = if attached n h then [mkH (HUser n) 0 (User n)] else [];
  V_default : ~ In RemoveDefault h -> sel is_default (g_handlers g) = [mkH HDefault 0 (Stream 0)] }.
Lemma Inv_core h g g' : core g = core g' -> Inv h g -> Inv h g'.
Proof.
  intros E. assert (E1 : g_level g = g_level g') by exact (f_equal g_level E). assert (E2 : g_handlers g = g_handlers g') by exact (f_equal g_handlers E). assert (E3 : g_filters g = g_filters g') by exact (f_equal g_filters E).
  assert (E4 : g_active g = g_active g') by exact (f_equal g_active E). assert (E5 : g_console g = g_console g') by exact (f_equal g_console E). assert (E6 : g_file g = g_file g') by exact (f_equal g_file E).
  assert (E7 : g_capture g = g_capture g') by exact (f_equal g_capture E). assert (E8 : g_next g = g_next g') by exact (f_equal g_next E).
  intros [A B C D F G I J K L M N]. split; rewrite <- ?E1, <- ?E2, <- ?E3, <- ?E4, <- ?E5, <- ?E6, <- ?E7, <- ?E8; assumption.
Qed.
Lemma open_passes h g name : Inv h g -> open_for name g = true <-> passes h name.
Proof.
  intro V. unfold open_for, passes. rewrite forallb_forall, (V_filters _ _ V). split; intros H p P.
  - apply fnmatch_like. apply H. apply (V_active _ _ V). exact P.
  - apply fnmatch_like. apply H. apply (V_active _ _ V). exact P.
Qed.

Lemma Inv_start files : Inv [] (start files).
Proof.
  split; try reflexivity; try (cbn; auto; fail).
  - constructor.
  - intro p. cbn. split; [contradiction|discriminate].
  - constructor; [split; reflexivity|constructor].
  - intros i f H. discriminate.
Qed.
Lemma snoc {A} (f : A -> op -> A) h o a : fold_left f (h ++ [o]) a = f (fold_left f h a) o.
Proof. rewrite fold_left_app. reflexivity. Qed.
Lemma s_level h o : level_in (h ++ [o]) = match o with SetLevel m => m | _ => level_in h end.
Proof. unfold level_in. rewrite snoc. reflexivity. Qed.
Lemma s_capture h o : capturing (h ++ [o]) = match o with Capture c => c | _ => capturing h end.
Proof. unfold capturing. rewrite snoc. reflexivity. Qed.
Lemma s_force h o p : in_force p (h ++ [o]) = match o with AddFilter q => if list_eq_dec Z.eq_dec p q then true else in_force p h | RemoveFilter q => if list_eq_dec Z.eq_dec p q then false else in_force p h | ClearFilters => false | _ => in_force p h end.
Proof. unfold in_force. rewrite snoc. reflexivity. Qed.
Lemma s_logs h o : logs_to (h ++ [o]) = match o with EnableFile f l _ true => Some (f, level_of l) | EnableFile _ _ _ false => None | DisableFile => None | _ => logs_to h end.
Proof. unfold logs_to. rewrite snoc. reflexivity. Qed.
Lemma s_last h o : last_file (h ++ [o]) = match o with EnableFile f _ _ true => Some f | DisableFile => None | _ => last_file h end.
Proof. unfold last_file. rewrite snoc. reflexivity. Qed.
Lemma s_console h o : console_in (h ++ [o]) = match o with EnableConsole l s => Some (s, level_of l) | DisableConsole => None | _ => console_in h end.
Proof. unfold console_in. rewrite snoc. reflexivity. Qed.
Lemma s_attached n h o : attached n (h ++ [o]) = match o with AddHandler m => if m =? n then true else attached n h | RemoveHandler m => if m =? n then false else attached n h | _ => attached n h end.
Proof. unfold attached. rewrite snoc. reflexivity. Qed.
Lemma s_default h o : ~ In RemoveDefault (h ++ [o]) -> ~ In RemoveDefault h.
Proof. intros H X. apply H. apply in_or_app. left. exact X. Qed.
Ltac spread := rewrite ?s_level, ?s_capture, ?s_logs, ?s_last, ?s_console.
Ltac rest := try assumption; try (intro; rewrite s_force; auto; fail); try (intro; rewrite s_attached; auto; fail); try (let d := fresh in intro d; apply s_default in d; auto; fail).

Lemma Inv_quiet h o g : match o with Log _ _ | Warn _ => True | _ => False end -> Inv h g -> Inv (h ++ [o]) g.
Proof. intros Q [A B C D F G I J K L M N]. destruct o; try contradiction; split; spread; rest. Qed.
Lemma log_core n m g : core (log n m g) = core g.
Proof. unfold log. destruct (_ <=? n); [apply (handle_got _ (Stream 0))|reflexivity]. Qed.
Lemma warn_core m g : core (warn m g) = core g.
Proof. unfold warn. destruct (g_capture g); [apply (handle_got _ (Stream 0))|reflexivity]. Qed.

Lemma drop_in p q : forall l, NoDup l -> In q (drop p l) <-> In q l /\ q <> p.
Proof.
  induction l as [|x l IH]; cbn; [tauto|]. intro U. inversion U; subst. destruct (str_eqb_spec x p) as [->|Nq].
  - split; [intro I; split; [auto|intros ->; contradiction]|intros [[->|I] Nq]; [contradiction|exact I]].
  - cbn. rewrite IH by assumption. intuition congruence.
Qed.
Lemma drop_once p : forall l, NoDup l -> NoDup (drop p l).
Proof. induction l as [|x l IH]; cbn; [auto|]. intro U. inversion U; subst. destruct (str_eqb_spec x p); [assumption|]. constructor; [|auto]. intro I. apply drop_in in I; [|assumption]. tauto. Qed.
Lemma drop_all : forall l m, fold_left (fun fs p => drop p fs) l (l ++ m) = m.
Proof. induction l as [|x l IH]; intro m; [reflexivity|]. cbn. rewrite str_eqb_refl. apply IH. Qed.
Lemma existsb_in p l : existsb (str_eqb p) l = true <-> In p l.
Proof. rewrite existsb_exists. split; [intros [x [I E]]; destruct (str_eqb_spec p x); [subst; exact I|discriminate]|intro I; exists p; split; [exact I|apply str_eqb_refl]]. Qed.

Lemma Inv_add_filter h p g : Inv h g -> Inv (h ++ [AddFilter p]) (add_filter p g).
Proof.
  intros [A B C D F G I J K L M N]. unfold add_filter. destruct (existsb (str_eqb p) (g_active g)) eqn:E.
  - split; spread; rest. intro q. rewrite s_force. destruct (list_eq_dec Z.eq_dec q p) as [->|Nq]; [|apply F]. apply existsb_in in E. tauto.
  - assert (NI : ~ In p (g_active g)) by (intro X; apply existsb_in in X; congruence).
    split; cbn [set_filters g_level g_handlers g_filters g_active g_console g_file g_capture g_next]; spread; rest.
    + rewrite C. reflexivity.
    + apply NoDup_rev in D. rewrite <- (rev_involutive (g_active g ++ [p])). apply NoDup_rev. rewrite rev_app_distr. cbn. constructor; [rewrite <- in_rev; exact NI|exact D].
    + intro q. rewrite s_force, in_app_iff. cbn [In]. destruct (list_eq_dec Z.eq_dec q p) as [->|Nq]; [tauto|]. rewrite <- F. intuition congruence.
Qed.
Lemma Inv_remove_filter h p g : Inv h g -> Inv (h ++ [RemoveFilter p]) (remove_filter p g).
Proof.
  intros [A B C D F G I J K L M N]. unfold remove_filter. destruct (existsb (str_eqb p) (g_active g)) eqn:E.
  - split; cbn [set_filters g_level g_handlers g_filters g_active g_console g_file g_capture g_next]; spread; rest.
    + rewrite C. reflexivity.
    + apply drop_once. exact D.
    + intro q. rewrite s_force, drop_in by exact D. destruct (list_eq_dec Z.eq_dec q p) as [->|Nq]; [intuition congruence|]. rewrite F. tauto.
  - assert (NI : ~ In p (g_active g)) by (intro X; apply existsb_in in X; congruence).
    split; spread; rest. intro q. rewrite s_force. destruct (list_eq_dec Z.eq_dec q p) as [->|Nq]; [intuition congruence|]. apply F.
Qed.
Lemma Inv_clear_filters h g : Inv h g -> Inv (h ++ [ClearFilters]) (clear_filters g).
Proof.
  intros [A B C D F G I J K L M N]. unfold clear_filters. split; cbn [set_filters g_level g_handlers g_filters g_active g_console g_file g_capture g_next]; spread; rest.
  - rewrite C. rewrite <- (app_nil_r (g_active g)) at 2. apply drop_all.
  - constructor.
  - intro q. rewrite s_force. cbn. intuition discriminate.
Qed.
Lemma Inv_set_level h n g : Inv h g -> Inv (h ++ [SetLevel n]) (set_level n g).
Proof. intros [A B C D F G I J K L M N]. split; cbn [set_level g_level g_handlers g_filters g_active g_console g_file g_capture g_next]; spread; rest. reflexivity. Qed.
Lemma Inv_capture h n g : Inv h g -> Inv (h ++ [Capture n]) (set_capture n g).
Proof. intros [A B C D F G I J K L M N]. split; cbn [set_capture g_level g_handlers g_filters g_active g_console g_file g_capture g_next]; spread; rest. reflexivity. Qed.

(** ** Adding and removing *)
Lemma Forall_without P i l : Forall P l -> Forall P (without i l).
Proof. intro F. apply Forall_forall. intros x X. apply in_without in X. exact (proj1 (Forall_forall _ _) F x X). Qed.
Lemma proper_mono n m l : n <= m -> Forall (proper n) l -> Forall (proper m) l.
Proof. intros L F. eapply Forall_impl; [|exact F]. intros h. unfold proper. destruct (h_id h); try tauto; intros [A B]; split; try assumption; lia. Qed.
Lemma sel_app P a b : sel P (a ++ b) = sel P a ++ sel P b.
Proof. apply filter_app. Qed.
Lemma existsb_sel i l : existsb (fun x => hid_eqb (h_id x) i) l = match sel (fun j => hid_eqb j i) l with [] => false | _ => true end.
Proof. induction l as [|h l IH]; [reflexivity|]. cbn [existsb sel filter]. destruct (hid_eqb (h_id h) i); [reflexivity|]. exact IH. Qed.
Lemma fresh_id n l (mk : Z -> hid) : (mk = HConsole \/ mk = HFile) -> Forall (proper n) l -> existsb (fun x => hid_eqb (h_id x) (mk n)) l = false.
Proof.
  intros Hm F. apply not_true_is_false. intro H. apply existsb_exists in H. destruct H as [x [I E]]. apply hid_eqb_iff in E. apply (proj1 (Forall_forall _ _) F) in I. unfold proper in I. rewrite E in I. destruct Hm as [->| ->]; destruct I; lia.
Qed.
Lemma user_id n l : existsb (fun x => hid_eqb (h_id x) (HUser n)) l = match sel (is_user n) l with [] => false | _ => true end.
Proof. induction l as [|h l IH]; [reflexivity|]. cbn [existsb sel filter]. replace (is_user n (h_id h)) with (hid_eqb (h_id h) (HUser n)) by (destruct (h_id h); reflexivity). destruct (hid_eqb (h_id h) (HUser n)); [reflexivity|]. exact IH. Qed.
Ltac fields := cbn [add_h remove_h with_handlers set_console set_file with_out g_level g_handlers g_filters g_active g_console g_file g_capture g_next].

Lemma Inv_add_user h n g : Inv h g -> Inv (h ++ [AddHandler n]) (add_h (mkH (HUser n) 0 (User n)) g).
Proof.
  intros [A B C D F G I J K L M N]. unfold add_h. cbn [h_id]. rewrite user_id, M. destruct (attached n h) eqn:E.
  - split; spread; rest. intro m. rewrite s_attached. destruct (Z.eqb_spec n m) as [->|]; [rewrite M, E; reflexivity|apply M].
  - split; fields; spread; rest.
    + apply Forall_app. split; [exact G|]. constructor; [reflexivity|constructor].
    + destruct (logs_to h) as [[f lv]|]; [destruct K as [k [K1 K2]]; exists k; split; [exact K1|]|]; rewrite sel_app; cbn [sel filter is_file h_id]; rewrite app_nil_r; assumption.
    + destruct (console_in h) as [[f lv]|]; [destruct L as [k [K0 [K1 K2]]]; exists k; split; [exact K0|split; [exact K1|]]|destruct L as [L1 L2]; split; [exact L1|]]; rewrite sel_app; cbn [sel filter is_console h_id]; rewrite app_nil_r; assumption.
    + intro m. rewrite s_attached, sel_app, M. cbn [sel filter is_user h_id]. destruct (Z.eqb_spec n m) as [->|]; [rewrite E; reflexivity|]. apply app_nil_r.
    + intro d. apply s_default in d. rewrite sel_app, N by exact d. reflexivity.
Qed.
Lemma Inv_remove_user h n g : Inv h g -> Inv (h ++ [RemoveHandler n]) (remove_h (HUser n) g).
Proof.
  intros [A B C D F G I J K L M N]. split; fields; spread; rest.
  - apply Forall_without. exact G.
  - rewrite sel_without_other by reflexivity. exact K.
  - rewrite sel_without_other by reflexivity. exact L.
  - intro m. rewrite s_attached. destruct (Z.eqb_spec n m) as [->|Nm].
    + rewrite sel_without by (cbn; apply Z.eqb_refl). rewrite M. destruct (attached m h); [cbn; rewrite Z.eqb_refl|]; reflexivity.
    + rewrite sel_without_other by (cbn; apply Z.eqb_neq; exact Nm). apply M.
  - intro d. apply s_default in d. rewrite sel_without_other by reflexivity. auto.
Qed.
Lemma Inv_remove_default h g : Inv h g -> Inv (h ++ [RemoveDefault]) (remove_h HDefault g).
Proof.
  intros [A B C D F G I J K L M N]. split; fields; spread; rest.
  - apply Forall_without. exact G.
  - rewrite sel_without_other by reflexivity. exact K.
  - rewrite sel_without_other by reflexivity. exact L.
  - intro m. rewrite s_attached. rewrite sel_without_other by reflexivity. apply M.
  - intro d. exfalso. apply d. apply in_or_app. right. left. reflexivity.
Qed.
Lemma Inv_disable_console h g : Inv h g -> Inv (h ++ [DisableConsole]) (disable_console g).
Proof.
  intros [A B C D F G I J K L M N]. unfold disable_console. destruct (console_in h) as [[s lv]|] eqn:E.
  - destruct L as [n [Ln [L1 L2]]]. rewrite L1. split; fields; spread; rest.
    + apply Forall_without. exact G.
    + rewrite sel_without_other by reflexivity. exact K.
    + split; [reflexivity|]. rewrite sel_without by reflexivity. rewrite L2. cbn. rewrite Z.eqb_refl. reflexivity.
    + intro m. rewrite s_attached. rewrite sel_without_other by reflexivity. apply M.
    + intro d. apply s_default in d. rewrite sel_without_other by reflexivity. auto.
  - destruct L as [L1 L2]. rewrite L1. split; spread; rest. split; assumption.
Qed.
Lemma Inv_enable_console h lv s g : Inv h g -> Inv (h ++ [EnableConsole lv s]) (enable_console lv s g).
Proof.
  intros [A B C D F G I J K L M N]. unfold enable_console.
  set (g1 := match g_console g with Some i => remove_h i g | None => g end).
  assert (H1 : g_level g1 = g_level g /\ g_filters g1 = g_filters g /\ g_active g1 = g_active g /\ g_file g1 = g_file g /\ g_capture g1 = g_capture g /\ g_next g1 = g_next g) by (unfold g1; destruct (g_console g); cbn; auto 10).
  destruct H1 as (R1 & R2 & R3 & R4 & R5 & R6).
  assert (H2 : Forall (proper (g_next g)) (g_handlers g1) /\ sel is_console (g_handlers g1) = [] /\ sel is_file (g_handlers g1) = sel is_file (g_handlers g) /\ (forall m, sel (is_user m) (g_handlers g1) = sel (is_user m) (g_handlers g)) /\ sel is_default (g_handlers g1) = sel is_default (g_handlers g)).
  { unfold g1. destruct (console_in h) as [[s' lv']|] eqn:E.
    - destruct L as [n [Ln [L1 L2]]]. rewrite L1. fields. rewrite (sel_without_other is_file), (sel_without_other is_default) by reflexivity. rewrite sel_without by reflexivity. rewrite L2. cbn [without h_id hid_eqb]. rewrite Z.eqb_refl. repeat split; auto using Forall_without. intro m. rewrite sel_without_other by reflexivity. reflexivity.
    - destruct L as [L1 L2]. rewrite L1. repeat split; auto. }
  destruct H2 as (P1 & P2 & P3 & P4 & P5). clearbody g1.
  unfold add_h. cbn [h_id set_console g_handlers]. rewrite R6. rewrite (fresh_id (g_next g) (g_handlers g1) HConsole) by (auto).
  split; fields; rewrite ?R1, ?R2, ?R3, ?R4, ?R5, ?R6; spread; rest.
  - apply Forall_app. split; [apply (proper_mono (g_next g)); [lia|exact P1]|]. constructor; [|constructor]. split; [lia|]. exists s. reflexivity.
  - intros i f X. destruct (J i f X) as [n [-> Ln]]. exists n. split; [reflexivity|lia].
  - destruct (logs_to h) as [[f l]|]; [destruct K as [k [K1 K2]]; exists k; split; [exact K1|]|]; rewrite sel_app, P3; cbn [sel filter is_file h_id]; rewrite app_nil_r; assumption.
  - exists (g_next g). split; [lia|]. split; [reflexivity|]. rewrite sel_app, P2. reflexivity.
  - intro m. rewrite s_attached, sel_app, P4. cbn [sel filter is_user h_id]. rewrite app_nil_r. apply M.
  - intro d. apply s_default in d. rewrite sel_app, P5, N by exact d. reflexivity.
Qed.
Lemma Inv_disable_file h g : Inv h g -> Inv (h ++ [DisableFile]) (disable_file g).
Proof.
  intros [A B C D F G I J K L M N]. unfold disable_file. destruct (g_file g) as [[i f]|] eqn:E.
  - destruct (J i f eq_refl) as [n [-> Ln]]. split; fields; spread; rest.
    + apply Forall_without. exact G.
    + reflexivity.
    + intros i' f' X. discriminate.
    + rewrite sel_without by reflexivity. destruct (logs_to h) as [[f' lv]|]; [|rewrite K; reflexivity]. destruct K as [k [K1 K2]]. injection K1 as <- <-. rewrite K2. cbn. rewrite Z.eqb_refl. reflexivity.
    + rewrite sel_without_other by reflexivity. exact L.
    + intro m. rewrite s_attached. rewrite sel_without_other by reflexivity. apply M.
    + intro d. apply s_default in d. rewrite sel_without_other by reflexivity. auto.
  - split; spread; rest.
    + rewrite E. reflexivity.
    + rewrite E. intros i' f' X. discriminate.
    + destruct (logs_to h) as [[f' lv]|]; [|exact K]. destruct K as [k [K1 K2]]. discriminate.
Qed.
Lemma Inv_enable_file h f lv fresh ok g : Inv h g -> Inv (h ++ [EnableFile f lv fresh ok]) (snd (enable_file f lv fresh ok g)).
Proof.
  intros V. unfold enable_file. set (g1 := match g_file g with Some (i, old) => remove_h i (warn (Switching old f) g) | None => g end).
  assert (CW : forall old, core (warn (Switching old f) g) = core g) by (intro; apply warn_core).
  assert (HW : forall old, g_handlers (warn (Switching old f) g) = g_handlers g) by (intro old; exact (f_equal g_handlers (CW old))).
  assert (H1 : g_level g1 = g_level g /\ g_filters g1 = g_filters g /\ g_active g1 = g_active g /\ g_file g1 = g_file g /\ g_capture g1 = g_capture g /\ g_next g1 = g_next g /\ g_console g1 = g_console g).
  { unfold g1. destruct (g_file g) as [[i old]|] eqn:E; [|auto 10]. fields. specialize (CW old). split; [exact (f_equal g_level CW)|]. split; [exact (f_equal g_filters CW)|]. split; [exact (f_equal g_active CW)|]. split; [rewrite <- E; exact (f_equal g_file CW)|].
    split; [exact (f_equal g_capture CW)|]. split; [exact (f_equal g_next CW)|exact (f_equal g_console CW)]. }
  destruct H1 as (R1 & R2 & R3 & R4 & R5 & R6 & R7). destruct V as [A B C D F G I J K L M N].
  assert (H2 : Forall (proper (g_next g)) (g_handlers g1) /\ sel is_file (g_handlers g1) = [] /\ sel is_console (g_handlers g1) = sel is_console (g_handlers g) /\ (forall m, sel (is_user m) (g_handlers g1) = sel (is_user m) (g_handlers g)) /\ sel is_default (g_handlers g1) = sel is_default (g_handlers g)).
  { unfold g1. destruct (g_file g) as [[i old]|] eqn:E.
    - destruct (J i old eq_refl) as [n [-> Ln]]. fields. rewrite HW. rewrite (sel_without_other is_console), (sel_without_other is_default) by reflexivity. rewrite sel_without by reflexivity. split; [auto using Forall_without|]. split; [|split; [reflexivity|split; [|reflexivity]]].
      + destruct (logs_to h) as [[f' l']|]; [|rewrite K; reflexivity]. destruct K as [k [K1 K2]]. injection K1 as <- <-. rewrite K2. cbn. rewrite Z.eqb_refl. reflexivity.
      + intro m. rewrite sel_without_other by reflexivity. reflexivity.
    - split; [exact G|]. split; [|auto]. destruct (logs_to h) as [[f' l']|]; [|exact K]. destruct K as [k [K1 K2]]. discriminate. }
  destruct H2 as (P1 & P2 & P3 & P4 & P5). clearbody g1. destruct ok; cbn [negb].
  2: { cbn [snd]. split; rewrite ?R1, ?R2, ?R3, ?R4, ?R5, ?R6, ?R7, ?P3, ?P2; spread; rest; [reflexivity| |].
       - intro m. rewrite s_attached, P4. apply M.
       - intro d. apply s_default in d. rewrite P5. auto. }
  cbn [snd]. set (g2 := if fresh then _ else g1).
  assert (H3 : core g2 = core g1) by (unfold g2; destruct fresh; reflexivity).
  assert (HH : g_handlers g2 = g_handlers g1) by exact (f_equal g_handlers H3). assert (Q1 : g_level g2 = g_level g1) by exact (f_equal g_level H3). assert (Q2 : g_filters g2 = g_filters g1) by exact (f_equal g_filters H3).
  assert (Q3 : g_active g2 = g_active g1) by exact (f_equal g_active H3). assert (Q5 : g_capture g2 = g_capture g1) by exact (f_equal g_capture H3). assert (Q7 : g_console g2 = g_console g1) by exact (f_equal g_console H3).
  clearbody g2. unfold add_h. cbn [h_id set_file g_handlers]. rewrite R6, HH. rewrite (fresh_id (g_next g) (g_handlers g1) HFile) by auto.
  split; fields; rewrite ?HH, ?Q1, ?Q2, ?Q3, ?Q5, ?Q7, ?R1, ?R2, ?R3, ?R5, ?R6, ?R7; spread; rest.
  - apply Forall_app. split; [apply (proper_mono (g_next g)); [lia|exact P1]|]. constructor; [|constructor]. split; [lia|]. exists f. reflexivity.
  - reflexivity.
  - intros i f' X. injection X as <- <-. exists (g_next g). split; [reflexivity|lia].
  - exists (g_next g). split; [reflexivity|]. rewrite sel_app, P2. reflexivity.
  - destruct (console_in h) as [[s l]|]; [destruct L as [k [K0 [K1 K2]]]; exists k; split; [lia|split; [exact K1|]]|destruct L as [L1 L2]; split; [exact L1|]]; rewrite sel_app, P3; cbn [sel filter is_console h_id]; rewrite app_nil_r; assumption.
  - intro m. rewrite s_attached, sel_app, P4. cbn [sel filter is_user h_id]. rewrite app_nil_r. apply M.
  - intro d. apply s_default in d. rewrite sel_app, P5, N by exact d. reflexivity.
Qed.

Lemma Inv_step h o g : Inv h g -> Inv (h ++ [o]) (step o g).
Proof.
  intro V. destruct o; cbn [step].
  - apply (Inv_core _ g); [symmetry; apply log_core|]. apply Inv_quiet; [exact Logic.I|exact V].
  - apply (Inv_core _ g); [symmetry; apply warn_core|]. apply Inv_quiet; [exact Logic.I|exact V].
  - apply Inv_set_level. exact V.
  - apply Inv_capture. exact V.
  - apply Inv_enable_console. exact V.
  - apply Inv_disable_console. exact V.
  - apply Inv_enable_file. exact V.
  - apply Inv_disable_file. exact V.
  - apply Inv_add_filter. exact V.
  - apply Inv_remove_filter. exact V.
  - apply Inv_clear_filters. exact V.
  - apply Inv_add_user. exact V.
  - apply Inv_remove_user. exact V.
  - apply Inv_remove_default. exact V.
Qed.
Lemma Inv_run h files : Inv h (run h (start files)).
Proof.
  induction h as [|o h IH] using rev_ind; [apply Inv_start|]. unfold run. rewrite fold_left_app. cbn [fold_left]. apply Inv_step. exact IH.
Qed.
