(** Proofs about CORFile.read and TBXFile.read. *)
From Coq Require Import List ZArith Bool Lia Permutation Sorted.
From Verif Require Import M_LdpCT S_LdpCT S_Buffer P_Buffer P_Buffer2 P_BufferModes.
Import ListNotations.
Open Scope Z_scope.

(** ** Lists *)
Lemma nodup_app : forall A (l l' : list A), NoDup (l ++ l') -> NoDup l /\ NoDup l' /\ forall x, In x l -> ~ In x l'.
Proof.
  induction l as [|x l IH]; cbn; intros l' H; [repeat split; auto; constructor|].
  inversion H as [|? ? N1 N2]; subst. destruct (IH _ N2) as (A1 & A2 & A3). rewrite in_app_iff in N1. split; [constructor; tauto|]. split; auto.
  intros y [->|Y]; [tauto|auto].
Qed.
Definition inb (x : Z) (l : list Z) : bool := existsb (Z.eqb x) l.
Lemma inb_t : forall x l, inb x l = true <-> In x l.
Proof.
  intros x l. unfold inb. rewrite existsb_exists. split.
  - intros (y & H & E). apply Z.eqb_eq in E. subst. auto.
  - intro H. exists x. split; auto. apply Z.eqb_refl.
Qed.
Lemma inb_f : forall x l, inb x l = false <-> ~ In x l.
Proof. intros x l. rewrite <- inb_t. destruct (inb x l); split; intro; congruence. Qed.
Lemma first_seen_In : forall l x, In x (first_seen l) <-> In x l.
Proof.
  induction l as [|y l IH]; intro x; [tauto|]. cbn [first_seen In]. rewrite filter_In, IH, negb_true_iff, Z.eqb_neq. split; [tauto|].
  destruct (Z.eq_dec x y) as [->|]; [tauto|]. intros [->|]; [tauto|auto].
Qed.
Lemma first_seen_NoDup : forall l, NoDup (first_seen l).
Proof.
  induction l as [|y l IH]; cbn; constructor.
  - rewrite filter_In, negb_true_iff, Z.eqb_neq. tauto.
  - apply NoDup_filter. auto.
Qed.
Lemma filter_filter : forall A (f g : A -> bool) l, filter f (filter g l) = filter (fun x => g x && f x) l.
Proof. induction l as [|x l IH]; cbn; auto. destruct (g x) eqn:G; cbn; rewrite IH; auto. Qed.
Lemma first_seen_app : forall p q, first_seen (p ++ q) = first_seen p ++ filter (fun y => negb (inb y p)) (first_seen q).
Proof.
  induction p as [|x p IH]; intro q; cbn.
  - symmetry. apply filter_all. auto.
  - f_equal. rewrite IH, filter_app, filter_filter. f_equal. apply filter_ext. intro y. rewrite negb_orb. apply andb_comm.
Qed.
Lemma first_seen_snoc : forall p x, first_seen (p ++ [x]) = if inb x p then first_seen p else first_seen p ++ [x].
Proof. intros. rewrite first_seen_app. cbn. destruct (inb x p); cbn; auto using app_nil_r. Qed.
Lemma first_seen_prefix : forall p q, exists r, first_seen (p ++ q) = first_seen p ++ r.
Proof. intros. rewrite first_seen_app. eauto. Qed.

Lemma min_key_is : forall l m, In m l -> (forall x, In x l -> m <= x) -> min_key l = Some m.
Proof.
  intros l m H1 H2. destruct (min_key l) as [y|] eqn:E.
  - apply min_key_some in E. destruct E as [A B]. f_equal. specialize (B m H1). specialize (H2 y A). lia.
  - apply min_key_none in E. subst. contradiction.
Qed.

Lemma recorded_app : forall F (a b : list (cslot F)), recorded (a ++ b) = recorded a ++ recorded b.
Proof. intros. apply flat_map_app. Qed.

(** ** Chunks *)
Definition breaks_ok {F} (lim : option Z) (x : Z) (l : list (cslot F)) : Prop :=
  forall m, lim = Some m -> short_breaks m l /\ forall a b, l = a ++ b -> recorded a = [] -> x + Z.of_nat (length a) <= m.
Lemma short_breaks_tl : forall F m (s : cslot F) l, short_breaks m (s :: l) -> short_breaks m l.
Proof. intros F m s l H a b r E R. apply (H (s :: a) b r); [rewrite E; auto|auto]. Qed.
Lemma breaks_frame : forall F lim x (f : F) l, breaks_ok lim x (CFrame f :: l) -> breaks_ok lim 0 l.
Proof.
  intros F lim x f l H m E. destruct (H m E) as [A B]. split; [eapply short_breaks_tl; eauto|].
  intros a b Ea Ra. apply (A [CFrame f] a b); [rewrite Ea; auto|auto].
Qed.
Lemma breaks_other : forall F lim x (s : cslot F) l, recorded [s] = [] -> breaks_ok lim x (s :: l) -> breaks_ok lim (x + 1) l /\ forall m, lim = Some m -> x + 1 <= m.
Proof.
  intros F lim x s l R H. split.
  - intros m E. destruct (H m E) as [A B]. split; [eapply short_breaks_tl; eauto|].
    intros a b Ea Ra. specialize (B (s :: a) b). cbn [length app] in B. rewrite Ea in B. specialize (B eq_refl).
    change (s :: a) with ([s] ++ a) in B. rewrite recorded_app, R, Ra in B. specialize (B eq_refl). lia.
  - intros m E. destruct (H m E) as [A B]. specialize (B [s] l eq_refl R). cbn in B. lia.
Qed.
Lemma breaks_start : forall F lim (l : list (cslot F)), (forall m, lim = Some m -> short_breaks m l) -> breaks_ok lim 0 l.
Proof. intros F lim l H m E. split; auto. intros a b Ea Ra. apply (H m E [] a b); auto. Qed.
Lemma take_ok : forall F lim n x (l : list (cslot F)) r fs e y, take_frames lim n x l = (r, fs, e, y) -> (forall a b, l = a ++ CTail :: b -> b = []) ->
  breaks_ok lim x l ->
  exists pre, l = pre ++ r /\ recorded l = fs ++ recorded r /\ (length fs <= n)%nat /\
    (e = true -> r = [] /\ (length fs < n)%nat) /\
    (e = false -> length pre = n /\ recorded pre = fs /\ breaks_ok lim y r).
Proof.
  intros F lim. induction n as [|n IH]; cbn [take_frames]; intros x l r fs e y H T BO.
  - injection H as <- <- <- <-. exists []. repeat split; auto; try discriminate; apply (BO m); auto.
  - destruct l as [|[f| | |] l].
    + injection H as <- <- <- <-. exists []. repeat split; auto; cbn; try lia; try discriminate.
    + destruct (take_frames lim n 0 l) as [[[r' fs'] e'] y'] eqn:R. injection H as <- <- <- <-.
      destruct (IH _ _ _ _ _ _ R) as (pre & A & B & C & D & E); [intros a b X; apply (T (CFrame f :: a) b); rewrite X; auto| |].
      { eapply breaks_frame. eauto. }
      exists (CFrame f :: pre). split; [rewrite A; auto|]. split; [cbn; rewrite <- B; auto|]. split; [cbn; lia|]. split; [intro X; apply D in X; cbn; split; [tauto|lia]|].
      intro X. apply E in X. destruct X as (E1 & E2 & E3). cbn. split; [lia|]. split; [f_equal; auto|auto].
    + destruct (breaks_other _ _ _ COther l eq_refl BO) as [BO' _].
      destruct (IH _ _ _ _ _ _ H) as (pre & A & B & C & D & E); [intros a b X; apply (T (COther :: a) b); rewrite X; auto|auto|].
      exists (COther :: pre). split; [rewrite A; auto|]. split; [cbn; auto|]. split; [lia|]. split; [intro X; apply D in X; split; [tauto|lia]|].
      intro X. apply E in X. destruct X as (E1 & E2 & E3). cbn. auto.
    + destruct (breaks_other _ _ _ CBad l eq_refl BO) as [BO' BL].
      assert (H' : take_frames lim n (x + 1) l = (r, fs, e, y)).
      { destruct lim as [m|]; auto. specialize (BL m eq_refl). destruct (Z.ltb_spec m (x + 1)); [lia|auto]. }
      destruct (IH _ _ _ _ _ _ H') as (pre & A & B & C & D & E); [intros a b X; apply (T (CBad :: a) b); rewrite X; auto|auto|].
      exists (CBad :: pre). split; [rewrite A; auto|]. split; [cbn; auto|]. split; [lia|]. split; [intro X; apply D in X; split; [tauto|lia]|].
      intro X. apply E in X. destruct X as (E1 & E2 & E3). cbn. auto.
    + assert (l = []) by (apply (T [] l); auto). subst l. injection H as <- <- <- <-. exists [CTail]. cbn. repeat split; auto; try lia; try discriminate.
Qed.

(** ** Rows *)
Lemma nth_error_seq : forall A (f : nat -> A) k i a, (i < k)%nat -> nth_error (map f (seq a k)) i = Some (f (a + i)%nat).
Proof.
  intros A f. induction k as [|k IH]; intros i a H; [lia|]. cbn [seq map]. destruct i as [|i]; [cbn; do 2 f_equal; lia|].
  cbn [nth_error]. rewrite IH by lia. do 2 f_equal. lia.
Qed.
Lemma upd_seq : forall A (f : nat -> A) x k i a, upd i x (map f (seq a k)) = map (fun b => if Nat.eqb b (a + i) then x else f b) (seq a k).
Proof.
  intros A f x. induction k as [|k IH]; intros i a; [destruct i; auto|]. cbn [seq map]. destruct i as [|i].
  - cbn [upd]. replace (a + 0)%nat with a by lia. rewrite Nat.eqb_refl. f_equal. apply map_ext_in. intros b Hb. apply in_seq in Hb.
    destruct (Nat.eqb_spec b a); [lia|auto].
  - cbn [upd]. rewrite IH. destruct (Nat.eqb_spec a (a + S i)); [lia|]. f_equal. apply map_ext. intro b. replace (S a + i)%nat with (a + S i)%nat by lia. auto.
Qed.
Lemma map_seq_ext : forall A (f g : nat -> A) k, (forall a, (a < k)%nat -> f a = g a) -> map f (seq 0 k) = map g (seq 0 k).
Proof. intros A f g k H. apply map_ext_in. intros a Ha. apply in_seq in Ha. apply H. lia. Qed.
Lemma filter_map_nodup : forall A B (f : A -> B) (P : A -> bool) l, NoDup (map f l) -> NoDup (map f (filter P l)).
Proof.
  intros A B f P. induction l as [|x l IH]; cbn; intro H; [constructor|]. inversion H as [|? ? N1 N2]; subst. destruct (P x); auto.
  cbn. constructor; auto. intro Y. apply N1. apply in_map_iff in Y. destruct Y as (z & Y1 & Y2). apply filter_In in Y2.
  apply in_map_iff. exists z. tauto.
Qed.

Lemma NoDup_app_l : forall A (a b : list A), NoDup (a ++ b) -> NoDup a.
Proof. intros A a b. induction a as [|x a IH]; intro H; [constructor|]. inversion H; subst. constructor; auto. intro X. apply H2. apply in_app_iff. auto. Qed.

Section Main.
Context {F : Type} (M : ops F) (C : cfg) (dat : F -> list num) (place : F -> res nat) (rid : list Z -> nat).
Context (k : nat) (skip : Z) (ignore : bool) (zero_at : F -> Z -> F) (autofill : Z).
Context (LW : lawful M C).
Context (KR : k = length (c_possible C)).
Context (PLACE : forall f, In (o_mid M f) (c_possible C) -> place f = Ok (rid (o_mid M f))).
Context (RLT : forall i, In i (c_possible C) -> (rid i < k)%nat).
Context (RINJ : forall i j, In i (c_possible C) -> In j (c_possible C) -> rid i = rid j -> i = j).
Context (DFILL : forall f i, dat (o_fill M f i) = map mul0 (dat f)).
Context (file0 : list (cslot F)) (t0 : Z) (grid : list nat) (L : nat).
Context (RC : recording (o_fom M) dat file0 t0 skip grid L).
Context (WIN : in_window (o_fom M) (c_nseg C) file0).
Context (IDS : ids_once (o_fom M) (o_mid M) (fun i => In i (c_possible C)) file0).
Context (SEG : (2 <= c_nseg C)%nat) (K1 : (1 <= k)%nat).

Notation mid f := (o_mid M f).
Notation fs := (recorded file0).
Notation tm j := (set_time t0 skip j).
Notation g i := (nth i grid 0%nat).
Notation N := (length grid).
Let TT := map (set_time t0 skip) grid.
Notation tags l := (map (o_fom M) l).
Let zeros := repeat (Fin 0) L.
Notation blk j i := (block (o_fom M) (o_mid M) dat file0 L (tm j) i).
Lemma SEG1 : (1 <= c_nseg C)%nat. Proof. lia. Qed.
Definition total : nat := S (last grid 0%nat).

(** *** The grid *)
Lemma skip_pos : 0 < skip. Proof. apply (rc_start _ _ _ _ _ _ _ RC). Qed.
Lemma t0_floor : 0 < t0. Proof. apply (rc_start _ _ _ _ _ _ _ RC). Qed.
Lemma st_S : forall j, tm (S j) = tm j + skip. Proof. intro j. unfold set_time. lia. Qed.
Lemma st_lt : forall i j, (i < j)%nat <-> tm i < tm j.
Proof. intros i j. unfold set_time. pose proof skip_pos. split; intro H1; nia. Qed.
Lemma st_inj : forall i j, tm i = tm j -> i = j.
Proof. intros i j H. pose proof (st_lt i j). pose proof (st_lt j i). lia. Qed.
Lemma st_floor : forall j, 0 < tm j.
Proof. intro j. unfold set_time. pose proof skip_pos. pose proof t0_floor. nia. Qed.
Lemma st_nz : forall j, tm j <> 0. Proof. intro j. pose proof (st_floor j).  lia. Qed.
Lemma g_lt : forall i j, (i < j)%nat -> (j < N)%nat -> (g i < g j)%nat.
Proof.
  intros i j H. induction H as [|j H IH]; intro HN.
  - apply (rc_grid _ _ _ _ _ _ _ RC). auto.
  - etransitivity; [apply IH; lia|]. apply (rc_grid _ _ _ _ _ _ _ RC). auto.
Qed.
Lemma N_pos : (0 < N)%nat.
Proof. pose proof (proj1 (rc_grid _ _ _ _ _ _ _ RC)) as H. destruct grid; cbn in *; [discriminate|lia]. Qed.
Lemma g_0 : g 0 = 0%nat.
Proof. pose proof (proj1 (rc_grid _ _ _ _ _ _ _ RC)) as H. destruct grid; cbn in *; [discriminate|auto]. Qed.
Lemma last_grid : last grid 0%nat = g (N - 1).
Proof.
  clear. induction grid as [|x [|y l] IH]; auto. change (last (x :: y :: l) 0%nat) with (last (y :: l) 0%nat). rewrite IH.
  replace (length (x :: y :: l) - 1)%nat with (S (length (y :: l) - 1)) by (cbn; lia). reflexivity.
Qed.
Lemma g_total : forall i, (i < N)%nat -> (g i < total)%nat.
Proof.
  intros i H. unfold total. rewrite last_grid. destruct (Nat.eq_dec i (N - 1)) as [->|]; [lia|].
  pose proof (g_lt i (N - 1)). lia.
Qed.
Lemma TT_len : length TT = N. Proof. apply map_length. Qed.
Lemma TT_nth : forall i, (i < N)%nat -> nth i TT 0 = tm (g i).
Proof. intros i H. unfold TT. rewrite nth_indep with (d' := tm 0%nat) by (rewrite map_length; auto). apply map_nth. Qed.
Lemma TT_skipn : forall e, (e < N)%nat -> skipn e TT = tm (g e) :: skipn (S e) TT.
Proof.
  intros e H. rewrite <- TT_nth by auto. assert (HL : (e < length TT)%nat) by (rewrite TT_len; auto). clear - HL.
  revert e HL. induction TT as [|x l IH]; cbn; intros e H; [lia|]. destruct e; auto. apply IH. lia.
Qed.
Lemma TT_In_skipn : forall e x, In x (skipn e TT) <-> exists i, (e <= i < N)%nat /\ x = tm (g i).
Proof.
  intros e x. split.
  - intro H. apply (In_nth _ _ 0) in H. destruct H as (j & H1 & H2). rewrite skipn_length, TT_len in H1. exists (e + j)%nat. split; [lia|].
    rewrite <- H2, <- TT_nth by lia.
    assert (X : forall (l : list Z) a b, nth b (skipn a l) 0 = nth (a + b) l 0).
    { clear. induction l as [|y l IH]; intros a b; [rewrite skipn_nil; destruct b, (a)%nat; auto|]. destruct a; auto. cbn. apply IH. }
    apply X.
  - intros (i & H & ->). assert (G : forall d e, (i = e + d)%nat -> (i < N)%nat -> In (tm (g i)) (skipn e TT)).
    { induction d as [|d IH]; intros e' E HN.
      - rewrite TT_skipn by lia. left. repeat f_equal. lia.
      - rewrite TT_skipn by lia. right. apply IH; lia. }
    apply (G (i - e)%nat); lia.
Qed.
Lemma TT_NoDup : NoDup TT.
Proof. unfold TT. rewrite <- (rc_order _ _ _ _ _ _ _ RC). apply first_seen_NoDup. Qed.

(** *** Frames *)
Lemma fs_grid : forall f, In f fs -> exists i, (i < N)%nat /\ o_fom M f = tm (g i).
Proof.
  intros f H. assert (I : In (o_fom M f) TT) by (unfold TT; rewrite <- (rc_order _ _ _ _ _ _ _ RC); apply first_seen_In, in_map; auto).
  apply (TT_In_skipn 0) in I. destruct I as (i & A & B). exists i. split; [lia|auto].
Qed.
Lemma fs_data : forall f, In f fs -> length (dat f) = L /\ map mul0 (dat f) = zeros.
Proof.
  intros f H. destruct (rc_data _ _ _ _ _ _ _ RC f H) as [A B]. split; [auto|]. unfold zeros. rewrite <- A. clear - B.
  induction (dat f) as [|x l IH]; auto. cbn. destruct (B x (or_introl eq_refl)) as [z ->]. cbn. f_equal. apply IH. intros y Y. apply B. right. auto.
Qed.
Lemma fs_mid_inj : forall f f', In f fs -> In f' fs -> o_fom M f = o_fom M f' -> mid f = mid f' -> f = f'.
Proof.
  destruct IDS as [_ ND]. revert ND. generalize fs. induction l as [|x l IH]; cbn; intros ND f f' H H' T Mi; [contradiction|].
  inversion ND as [|? ? N1 N2]; subst. destruct H as [->|H], H' as [->|H']; auto.
  - exfalso. apply N1. rewrite T, Mi. apply (in_map (fun f => (o_fom M f, mid f)) l f'); auto.
  - exfalso. apply N1. rewrite <- T, <- Mi. apply (in_map (fun f => (o_fom M f, mid f)) l f); auto.
Qed.
(** A frame of the file is its block. *)
Lemma block_real : forall f, In f fs -> dat f = block (o_fom M) (o_mid M) dat file0 L (o_fom M f) (mid f).
Proof.
  intros f H. unfold block. destruct (find _ fs) as [f'|] eqn:E.
  - apply find_some in E. destruct E as [I E]. apply andb_true_iff in E. destruct E as [E1 E2]. apply Z.eqb_eq in E1.
    destruct (list_eq_dec Z.eq_dec (mid f') (mid f)) as [E3|]; [|discriminate]. f_equal. apply fs_mid_inj; auto.
  - eapply find_none in E; [|exact H]. cbn in E. rewrite Z.eqb_refl in E. destruct (list_eq_dec Z.eq_dec (mid f) (mid f)); [discriminate|congruence].
Qed.
Lemma block_none : forall t i, (forall f, In f fs -> o_fom M f = t -> mid f <> i) -> block (o_fom M) (o_mid M) dat file0 L t i = zeros.
Proof.
  intros t i H. unfold block. destruct (find _ fs) as [f'|] eqn:E; [|reflexivity].
  apply find_some in E. destruct E as [I E]. apply andb_true_iff in E. destruct E as [E1 E2]. apply Z.eqb_eq in E1.
  destruct (list_eq_dec Z.eq_dec (mid f') i) as [E3|]; [|discriminate]. exfalso. apply (H f'); auto.
Qed.

(** *** Sets *)
Definition good_set (j : nat) (out : list F) : Prop :=
  Permutation (map (fun f => mid f) out) (c_possible C) /\
  forall f, In f out -> o_fom M f = tm j /\ length (dat f) = L /\ dat f = blk j (mid f).

Definition at_tag (t : Z) (p : list F) : list F := filter (fun f => o_fom M f =? t) p.

(** get() of an entry with key k. *)
Lemma get_entry : forall s t l, lookup t (s_buf s) = Some l -> l <> [] ->
  NoDup (map (fun f => mid f) l) -> (forall f, In f l -> In (mid f) (c_possible C) /\ o_fom M f = t) ->
  (forall f, In f l -> map mul0 (dat f) = zeros) ->
  exists s' out, get_key M C s t = Ok (s', out) /\ s_buf s' = remove_key t (s_buf s) /\
    s_done s' = deque_append (c_nseg C) (s_done s) t /\
    Permutation (map (fun f => mid f) out) (c_possible C) /\
    forall f, In f out -> o_fom M f = t /\ (In f l \/ (dat f = zeros /\ ~ In (mid f) (map (fun f => mid f) l))).
Proof.
  intros s t l HL NE ND HI HZ.
  destruct (get_key_total M C s t) as (s' & out & G).
  { clear - HL. revert HL. induction (s_buf s) as [|[k' l'] b IH]; cbn; [discriminate|]. destruct (Z.eqb_spec t k'); auto. }
  destruct (get_key_cases M C _ _ _ _ G) as (l' & o & fu & pa & dr & mi & HL' & -> & -> & CS).
  rewrite HL in HL'. injection HL' as <-.
  exists (mkSt (remove_key t (s_buf s)) (deque_append (c_nseg C) (s_done s) t) fu pa dr mi), (maybe_sort M C o).
  split; [exact G|]. split; [reflexivity|]. split; [reflexivity|].
  assert (IC : incl (map (o_mid M) l) (c_possible C)).
  { intros i Hi. apply in_map_iff in Hi. destruct Hi as (f & <- & Hf). apply HI. auto. }
  pose proof (missing_spec M C l ND IC (lw_nodup _ _ LW)) as PM.
  pose proof (maybe_sort_perm M C o) as MS.
  assert (LEN : (length l <= c_nframes C)%nat) by (apply (good_length M C LW); split; auto).
  assert (HO : Permutation (map (fun f => mid f) o) (c_possible C) /\
    forall f, In f o -> o_fom M f = t /\ (In f l \/ (dat f = zeros /\ ~ In (mid f) (map (fun f => mid f) l)))).
  { destruct CS as [(E & -> & _)|[(E & -> & _)|(E & _)]]; [| |lia].
    - split.
      + pose proof (Permutation_length PM) as PL. rewrite app_length, map_length, E, (lw_count _ _ LW) in PL.
        assert (MN : missing_list M C l = []) by (apply length_zero_iff_nil; lia). rewrite MN, app_nil_r in PM. exact PM.
      + intros f Hf. split; [apply HI; auto|auto].
    - destruct l as [|b0 r]; [congruence|].
      assert (MM : map (fun f => mid f) (map (o_fill M b0) (missing_list M C (b0 :: r))) = missing_list M C (b0 :: r)).
      { rewrite map_map. rewrite <- (map_id (missing_list M C (b0 :: r))) at 2. apply map_ext_in. intros i Hi. apply (lw_mid _ _ LW b0).
        unfold missing_list in Hi. apply filter_In in Hi. tauto. }
      split; [rewrite map_app, MM; exact PM|].
      intros f Hf. apply in_app_iff in Hf. destruct Hf as [Hf|Hf]; [split; [apply HI; auto|auto]|].
      apply in_map_iff in Hf. destruct Hf as (i & <- & Hi). unfold missing_list in Hi. apply filter_In in Hi. destruct Hi as [Hi1 Hi2].
      apply negb_true_iff, id_in_false in Hi2.
      split; [rewrite (lw_fom _ _ LW); apply (HI b0); left; auto|].
      right. split.
      + rewrite DFILL. apply HZ. left. auto.
      + rewrite (lw_mid _ _ LW) by auto. exact Hi2. }
  destruct HO as [HO1 HO2]. split; [rewrite MS; exact HO1|]. intros f Hf. apply HO2. eapply Permutation_in; [exact MS|exact Hf].
Qed.

(** *** Writing a set to the array *)
Definition idof (a : nat) : option (list Z) := find (fun i => Nat.eqb (rid i) a) (c_possible C).
Lemma idof_rid : forall i, In i (c_possible C) -> idof (rid i) = Some i.
Proof.
  intros i H. unfold idof. destruct (find _ _) as [j|] eqn:E.
  - apply find_some in E. destruct E as [E1 E2]. apply Nat.eqb_eq in E2. f_equal. apply RINJ; auto.
  - eapply find_none in E; [|exact H]. cbn in E. rewrite Nat.eqb_refl in E. discriminate.
Qed.
Lemma idof_some : forall a i, idof a = Some i -> In i (c_possible C) /\ rid i = a.
Proof. intros a i H. apply find_some in H. destruct H as [H1 H2]. apply Nat.eqb_eq in H2. auto. Qed.
Definition memi (i : list Z) (D : list (list Z)) : bool := if in_dec (list_eq_dec Z.eq_dec) i D then true else false.
Definition tagE (E : nat) : Z := match E with O => 0 | S e => tm e end.
Definition rowE (E0 n a : nat) : list (list num) := match idof a with Some i => map (fun j => blk (E0 + j) i) (seq 0 n) | None => [] end.
Definition timeE (E0 n : nat) : option Z := match n with O => None | _ => Some (tm E0) end.
Definition accE (E0 E : nat) : got := mkGot (tagE E) (timeE E0 (E - E0)) (map (rowE E0 (E - E0)) (seq 0 k)).
Definition partD (E0 E : nat) (D : list (list Z)) : got :=
  mkGot (tm E) (match D with [] => timeE E0 (E - E0) | _ => Some (tm E0) end)
        (map (fun a => rowE E0 (E - E0) a ++ match idof a with Some i => if memi i D then [blk E i] else [] | None => [] end) (seq 0 k)).

Lemma put_step : forall n E0 E D f, (E0 <= E)%nat -> (E - E0 < n)%nat -> o_fom M f = tm E -> In (mid f) (c_possible C) ->
  ~ In (mid f) D -> dat f = blk E (mid f) ->
  put_frame M dat place n (partD E0 E D) f = Ok (partD E0 E (mid f :: D)).
Proof.
  intros n E0 E D f H0 Hn HT HI HD HB. unfold put_frame. rewrite PLACE by auto. cbn [bind]. unfold partD. cbn [g_rows g_tag g_time].
  pose proof (RLT _ HI) as RL. rewrite nth_error_seq by auto. cbn [plus]. rewrite idof_rid by auto.
  unfold memi at 1. destruct (in_dec (list_eq_dec Z.eq_dec) (mid f) D) as [|_]; [contradiction|].
  rewrite app_nil_r. unfold rowE at 1. rewrite idof_rid by auto. rewrite map_length, seq_length.
  destruct (Nat.leb_spec n (E - E0)); [lia|]. f_equal. f_equal.
  - rewrite HT. destruct D as [|d D]; auto. unfold timeE. destruct (E - E0)%nat eqn:EE; auto. replace E with E0 by lia. auto.
  - rewrite upd_seq. apply map_seq_ext. intros a Ha. cbn [plus]. destruct (Nat.eqb_spec a (rid (mid f))) as [->|Na].
    + unfold rowE. rewrite !idof_rid by auto. unfold memi at 1 2. destruct (in_dec (list_eq_dec Z.eq_dec) (mid f) D) as [|_]; [contradiction|].
      rewrite app_nil_r. destruct (in_dec (list_eq_dec Z.eq_dec) (mid f) (mid f :: D)) as [_|X]; [|exfalso; apply X; left; auto].
      rewrite HB. auto.
    + destruct (idof a) as [i|] eqn:IA; auto. apply idof_some in IA. destruct IA as [IA1 IA2]. f_equal. unfold memi.
      destruct (in_dec (list_eq_dec Z.eq_dec) i D) as [X|X], (in_dec (list_eq_dec Z.eq_dec) i (mid f :: D)) as [Y|Y]; auto.
      * exfalso. apply Y. right. auto.
      * destruct Y as [Y|Y]; [exfalso; apply Na; rewrite <- IA2, Y; auto|contradiction].
Qed.
Lemma put_frames_step : forall n E0 E out D, (E0 <= E)%nat -> (E - E0 < n)%nat ->
  NoDup (map (fun f => mid f) out) ->
  (forall f, In f out -> o_fom M f = tm E /\ In (mid f) (c_possible C) /\ dat f = blk E (mid f) /\ ~ In (mid f) D) ->
  put_frames M dat place n (partD E0 E D) out = Ok (partD E0 E (rev (map (fun f => mid f) out) ++ D)).
Proof.
  intros n E0 E out. induction out as [|f out IH]; intros D H0 Hn ND HF; auto.
  cbn [put_frames]. destruct (HF f) as (A1 & A2 & A3 & A4); [left; auto|]. rewrite put_step by auto. cbn [bind].
  inversion ND as [|? ? N1 N2]; subst. rewrite IH; auto.
  - cbn [map rev]. rewrite <- app_assoc. auto.
  - intros f' Hf. destruct (HF f') as (B1 & B2 & B3 & B4); [right; auto|]. repeat split; auto. intros [X|X]; auto.
    apply N1. rewrite X. apply (in_map (fun f => mid f)). auto.
Qed.
Lemma put_ok : forall n E0 E out, (E0 <= E)%nat -> (E - E0 < n)%nat -> out <> [] -> good_set E out ->
  put_set M dat place skip ignore n (accE E0 E) out = Ok (accE E0 (S E)).
Proof.
  intros n E0 E out H0 Hn NE [HP HF].
  assert (HM : forall f, In f out -> In (mid f) (c_possible C)).
  { intros f Hf. eapply Permutation_in; [exact HP|]. apply (in_map (fun f => mid f)); auto. }
  assert (PS : put_set M dat place skip ignore n (accE E0 E) out = put_frames M dat place n (partD E0 E []) out).
  { destruct out as [|f out]; [congruence|]. unfold put_set. rewrite (proj1 (HF f (or_introl eq_refl))). cbn [g_tag g_time g_rows accE]. cbv zeta.
    replace (tm E =? (if tagE E =? 0 then tm E - skip else tagE E) + skip) with true.
    - cbn [negb andb]. f_equal. unfold partD. f_equal. apply map_seq_ext. intros a Ha. destruct (idof a); cbn; rewrite app_nil_r; auto.
    - symmetry. apply Z.eqb_eq. destruct E as [|E]; cbn [tagE]; [rewrite Z.eqb_refl; lia|].
      destruct (Z.eqb_spec (tm E) 0) as [Z0|_]; [destruct (st_nz _ Z0)|]. apply st_S. }
  rewrite PS, put_frames_step; auto.
  - f_equal. unfold partD, accE. rewrite app_nil_r. f_equal.
    + destruct (rev (map (fun f => mid f) out)) as [|x r] eqn:R.
      { apply (f_equal (@length _)) in R. rewrite rev_length, map_length in R. destruct out; [congruence|discriminate]. }
      replace (S E - E0)%nat with (S (E - E0)) by lia. auto.
    + apply map_seq_ext. intros a Ha. unfold rowE. destruct (idof a) as [i|] eqn:IA; auto. apply idof_some in IA. destruct IA as [IA _].
      unfold memi. destruct (in_dec (list_eq_dec Z.eq_dec) i _) as [_|X].
      * replace (S E - E0)%nat with (S (E - E0)) by lia. rewrite seq_S, map_app. cbn [map plus]. repeat f_equal. lia.
      * exfalso. apply X. apply -> in_rev. eapply Permutation_in; [apply Permutation_sym; exact HP|auto].
  - apply (Permutation_NoDup (Permutation_sym HP)). apply (lw_nodup _ _ LW).
  - intros f Hf. destruct (HF f Hf) as (A & B & D). repeat split; auto.
Qed.

(** *** Appending frames of the file *)
Definition live (e m : nat) : list Z := skipn e (firstn m TT).
Definition real (p : list F) (t : Z) : Z * list F := (t, at_tag t p).

Lemma firstn_S_TT : forall m, (m < N)%nat -> firstn (S m) TT = firstn m TT ++ [tm (g m)].
Proof.
  intros m H. rewrite <- TT_nth by auto. assert (HL : (m < length TT)%nat) by (rewrite TT_len; auto). clear - HL.
  revert m HL. induction TT as [|x l IH]; cbn [length]; intros m H; [lia|]. destruct m; auto. cbn [firstn nth app]. f_equal. apply IH. lia.
Qed.
Lemma live_S : forall e m, (e <= m < N)%nat -> live e (S m) = live e m ++ [tm (g m)].
Proof.
  intros e m H. unfold live. rewrite firstn_S_TT by lia. rewrite skipn_app. f_equal.
  rewrite firstn_length, TT_len. replace (e - Nat.min m N)%nat with 0%nat by lia. auto.
Qed.
Lemma live_cons : forall e m, (e < m <= N)%nat -> live e m = tm (g e) :: live (S e) m.
Proof.
  intros e m H. unfold live. rewrite !skipn_firstn_comm. rewrite TT_skipn by lia.
  replace (m - e)%nat with (S (m - S e)) by lia. auto.
Qed.
Lemma live_nil : forall e, live e e = [].
Proof. intro e. unfold live. rewrite skipn_firstn_comm, Nat.sub_diag. auto. Qed.
Lemma live_length : forall e m, (e <= m <= N)%nat -> length (live e m) = (m - e)%nat.
Proof. intros e m H. unfold live. rewrite skipn_length, firstn_length, TT_len. lia. Qed.
Lemma live_In : forall e m x, (m <= N)%nat -> In x (live e m) <-> exists i, (e <= i < m)%nat /\ x = tm (g i).
Proof.
  intros e m x Hm. split.
  - intro H. assert (H' : In x (skipn e TT)).
    { rewrite <- (firstn_skipn m TT), skipn_app, in_app_iff. left. auto. }
    apply TT_In_skipn in H'. destruct H' as (i & Hi & ->). exists i. split; auto.
    assert (HF : In (tm (g i)) (firstn m TT)).
    { rewrite <- (firstn_skipn e (firstn m TT)), in_app_iff. auto. }
    destruct (Nat.lt_ge_cases i m); [lia|]. exfalso.
    pose proof TT_NoDup as ND. rewrite <- (firstn_skipn m TT) in ND.
    apply nodup_app in ND. exact (proj2 (proj2 ND) _ HF (proj2 (TT_In_skipn m _) (ex_intro _ i (conj (conj H0 (proj2 Hi)) eq_refl)))).
  - intros (i & [H1 H2] & ->). revert e H1. induction m as [|m IH]; [lia|]. intros e H1.
    rewrite live_S by lia. apply in_app_iff. destruct (Nat.eq_dec i m) as [->|]; [right; left; auto|]. left. apply IH; lia.
Qed.
Lemma live_NoDup : forall e m, NoDup (live e m).
Proof.
  intros e m. unfold live. pose proof TT_NoDup as ND. rewrite <- (firstn_skipn m TT) in ND. apply nodup_app, proj1 in ND.
  rewrite <- (firstn_skipn e (firstn m TT)) in ND. apply nodup_app in ND. tauto.
Qed.

Lemma at_tag_snoc : forall t p f, at_tag t (p ++ [f]) = if o_fom M f =? t then at_tag t p ++ [f] else at_tag t p.
Proof. intros. unfold at_tag. rewrite filter_app. cbn. destruct (o_fom M f =? t); auto using app_nil_r. Qed.
Lemma at_tag_none : forall t p, ~ In t (tags p) -> at_tag t p = [].
Proof. intros t p H. apply filter_none. intros f Hf. apply Z.eqb_neq. intro E. apply H. rewrite <- E. apply in_map. auto. Qed.
Lemma add_real : forall p f ts, NoDup ts -> In (o_fom M f) ts ->
  add_frame (o_fom M f) f (map (real p) ts) = map (real (p ++ [f])) ts.
Proof.
  intros p f ts. induction ts as [|t ts IH]; intros ND HI; [contradiction|]. inversion ND as [|? ? N1 N2]; subst.
  cbn [map]. change (real p t) with (t, at_tag t p). change (real (p ++ [f]) t) with (t, at_tag t (p ++ [f])).
  cbn [add_frame]. rewrite at_tag_snoc. destruct (Z.eqb_spec (o_fom M f) t) as [E|E].
  - f_equal. apply map_ext_in. intros x Hx. unfold real. rewrite at_tag_snoc. destruct (Z.eqb_spec (o_fom M f) x); auto. exfalso. apply N1. congruence.
  - f_equal. apply IH; auto. destruct HI; [congruence|auto].
Qed.
Lemma keys_real : forall p ts, keys (map (real p) ts) = ts.
Proof. intros. unfold keys. rewrite map_map. apply map_id. Qed.

Record BUF (s : st F) (p : list F) (e m : nat) : Prop := {
  b_buf : s_buf s = map (real p) (live e m);
  b_first : first_seen (tags p) = firstn m TT;
  b_em : (e <= m <= N)%nat;
  b_done : exists d, deque_last (s_done s) = Some d /\ forall x, In x (skipn e TT) -> d < x
}.

Lemma prefix_m : forall p q, fs = p ++ q -> first_seen (tags p) = firstn (length (first_seen (tags p))) TT /\ (length (first_seen (tags p)) <= N)%nat.
Proof.
  intros p q H. pose proof (rc_order _ _ _ _ _ _ _ RC) as O. fold TT in O. rewrite H, map_app in O. destruct (first_seen_prefix (tags p) (tags q)) as [r R].
  rewrite R in O. rewrite <- O. split.
  - rewrite firstn_app, Nat.sub_diag, firstn_all, firstn_O, app_nil_r. auto.
  - rewrite <- TT_len, <- O, app_length. lia.
Qed.

Lemma append_real1 : forall s p e m f q, BUF s p e m -> fs = (p ++ [f]) ++ q -> In (o_fom M f) (skipn e TT) ->
  exists s' m', append_one M s f = Ok s' /\ BUF s' (p ++ [f]) e m' /\ s_done s' = s_done s /\ (m <= m' <= S m)%nat.
Proof.
  intros s p e m f q B Hfs HI. destruct (b_done _ _ _ _ B) as (d & Hd & Hlt).
  pose proof (append_one_new M C SEG1 s f d Hd (Hlt _ HI)) as A. change (o_fom M f) with (o_fom M f) in A.
  destruct (b_em _ _ _ _ B) as [Hem HmN]. pose proof (b_first _ _ _ _ B) as BF.
  destruct (prefix_m _ _ Hfs) as [P1 P2]. rewrite map_app in P1, P2. cbn [map] in P1, P2. rewrite first_seen_snoc in P1, P2.
  destruct (inb (o_fom M f) (tags p)) eqn:IB.
  - eexists _, m. split; [exact A|]. split; [|split; [reflexivity|lia]].
    apply inb_t, first_seen_In in IB. rewrite BF in IB.
    assert (IL : In (o_fom M f) (live e m)).
    { apply TT_In_skipn in HI. destruct HI as (i & Hi & Ei).
      assert (IB' : In (o_fom M f) (live 0 m)) by exact IB. apply live_In in IB'; auto. destruct IB' as (j & Hj & Ej).
      apply live_In; auto. exists j. split; auto. split; [|lia].
      rewrite Ei in Ej. apply st_inj in Ej. destruct (Nat.lt_trichotomy i j) as [X|[X|X]]; try lia.
      - pose proof (g_lt j i X). lia. }
    split; cbn [s_buf s_done]; auto.
    + rewrite (b_buf _ _ _ _ B). apply add_real; auto. apply live_NoDup.
    + rewrite map_app. cbn. rewrite first_seen_snoc. rewrite <- BF in IB. apply (proj1 (first_seen_In _ _)), inb_t in IB. rewrite IB. auto.
    + eauto.
  - rewrite BF in P1, P2. rewrite app_length, firstn_length, TT_len in P1, P2. cbn [length] in P1, P2.
    replace (Nat.min m N + 1)%nat with (S m) in P1, P2 by lia. rewrite firstn_S_TT in P1 by lia.
    apply app_inv_head in P1. injection P1 as P1.
    eexists _, (S m). split; [exact A|]. split; [|split; [reflexivity|lia]].
    apply inb_f in IB.
    split; cbn [s_buf s_done]; auto; try lia.
    + rewrite (b_buf _ _ _ _ B). rewrite live_S by lia. rewrite add_frame_new.
      * rewrite map_app. f_equal.
        -- apply map_ext_in. intros t Ht. unfold real. rewrite at_tag_snoc. destruct (Z.eqb_spec (o_fom M f) t); auto. subst t. exfalso. apply IB.
           apply first_seen_In. rewrite BF. apply live_In in Ht; auto. destruct Ht as (i & Hi & Ei). change (firstn m TT) with (live 0 m). apply live_In; auto. exists i. split; [lia|auto].
        -- cbn. unfold real. rewrite P1, at_tag_snoc, Z.eqb_sym, P1, Z.eqb_refl. rewrite at_tag_none; auto. rewrite <- P1. auto.
      * rewrite keys_real. intro Ht. apply IB. apply first_seen_In. rewrite BF. apply live_In in Ht; auto. destruct Ht as (i & Hi & Ei).
        change (firstn m TT) with (live 0 m). apply live_In; auto. exists i. split; [lia|auto].
    + rewrite map_app. cbn [map]. rewrite first_seen_snoc. apply inb_f in IB. rewrite IB, BF, firstn_S_TT by lia. rewrite P1. auto.
    + eauto.
Qed.
Lemma append_real : forall fr s p e m q, BUF s p e m -> fs = p ++ fr ++ q -> (forall f, In f fr -> In (o_fom M f) (skipn e TT)) ->
  exists s' m', append M s fr = Ok s' /\ BUF s' (p ++ fr) e m' /\ s_done s' = s_done s /\ (m <= m' <= m + length fr)%nat.
Proof.
  induction fr as [|f fr IH]; intros s p e m q B Hfs HI.
  - exists s, m. rewrite app_nil_r. split; auto. split; auto. split; auto. cbn. lia.
  - destruct (append_real1 s p e m f (fr ++ q)) as (s1 & m1 & A1 & B1 & D1 & M1); auto.
    { rewrite Hfs, <- app_assoc. auto. } { apply HI. left. auto. }
    destruct (IH s1 (p ++ [f]) e m1 q) as (s2 & m2 & A2 & B2 & D2 & M2); auto.
    { rewrite Hfs, <- app_assoc. auto. } { intros. apply HI. right. auto. }
    exists s2, m2. cbn [append]. rewrite A1. split; auto. rewrite <- app_assoc in B2. split; auto. split; [congruence|]. cbn. lia.
Qed.


(** *** The state between two sets *)
Definition fill_frame (base : F) (j : nat) : F := zero_at base (tm j).
Definition fills (base : F) (E c : nat) : list (Z * list F) := map (fun j => (tm j, [fill_frame base j])) (seq E c).
Definition usable (f : F) : Prop := In (mid f) (c_possible C) /\ length (dat f) = L.

Record INV (file : list (cslot F)) (s : st F) (E e m c : nat) (p : list F) (base : F) : Prop := {
  n_split : fs = p ++ recorded file;
  n_suffix : exists pre, file0 = pre ++ file;
  n_buf : s_buf s = map (real p) (live e m) ++ fills base E c;
  n_first : first_seen (tags p) = firstn m TT;
  n_em : (e <= m <= N)%nat;
  n_done : deque_last (s_done s) = Some (match E with O => 0 | S x => tm x end);
  n_rest : forall f, In f (recorded file) -> In (o_fom M f) (skipn e TT);
  n_lo : forall i, (i < e)%nat -> (g i < E)%nat;
  n_hi : (e < N)%nat -> (E <= g e)%nat;
  n_endE : e = N -> E = total;
  n_fill : c = 0%nat \/ ((e < N)%nat /\ (E + c = g e)%nat /\ (c_nseg C <= m - e)%nat /\ usable base);
  n_end : e = N -> file = []
}.

Lemma INV_m_end : forall file s E e m c p base, INV file s E e m c p base -> recorded file = [] -> m = N.
Proof.
  intros file s E e m c p base I H. pose proof (n_split _ _ _ _ _ _ _ _ I) as S1. rewrite H, app_nil_r in S1.
  pose proof (n_first _ _ _ _ _ _ _ _ I) as S2. rewrite <- S1, (rc_order _ _ _ _ _ _ _ RC) in S2. fold TT in S2.
  apply (f_equal (@length Z)) in S2. rewrite firstn_length, TT_len in S2. pose proof (n_em _ _ _ _ _ _ _ _ I). lia.
Qed.
Lemma INV_tail : forall file s E e m c p base, INV file s E e m c p base -> forall a b, file = a ++ CTail :: b -> b = [].
Proof.
  intros file s E e m c p base I a b ->. destruct (n_suffix _ _ _ _ _ _ _ _ I) as [pre Hp].
  apply (rc_tail _ _ _ _ _ _ _ RC (pre ++ a)). rewrite Hp, app_assoc. auto.
Qed.
Lemma n_done_lt : forall E e, (forall i, (i < e)%nat -> (g i < E)%nat) -> ((e < N)%nat -> (E <= g e)%nat) ->
  forall x, In x (skipn e TT) -> match E with O => 0 | S y => tm y end < x.
Proof.
  intros E e LO HI x H. apply TT_In_skipn in H. destruct H as (i & Hi & ->). destruct E as [|y]; [apply st_floor|].
  apply st_lt. assert (g e <= g i)%nat. { destruct (Nat.eq_dec e i) as [->|]; auto. pose proof (g_lt e i). lia. }
  assert (S y <= g e)%nat by (apply HI; lia). lia.
Qed.
Lemma keys_fills : forall base E c, keys (fills base E c) = map (set_time t0 skip) (seq E c).
Proof. intros. unfold keys, fills. rewrite map_map. auto. Qed.
Lemma g_le : forall i j, (i <= j)%nat -> (j < N)%nat -> (g i <= g j)%nat.
Proof. intros i j H1 H2. destruct (Nat.eq_dec i j) as [->|]; auto. pose proof (g_lt i j). lia. Qed.

Lemma lookup_app : forall F k (a b : list (Z * list F)), lookup k (a ++ b) = match lookup k a with Some l => Some l | None => lookup k b end.
Proof. induction a as [|[k' l] a IH]; cbn; intro b; auto. destruct (k0 =? k'); auto. Qed.
Lemma remove_app : forall F k (a b : list (Z * list F)), ~ In k (keys a) -> remove_key k (a ++ b) = a ++ remove_key k b.
Proof.
  induction a as [|[k' l] a IH]; cbn; intros b H; auto. destruct (Z.eqb_spec k0 k'); [subst; tauto|]. f_equal. apply IH. tauto.
Qed.

(** the first key is the next time *)
Lemma INV_min : forall file s E e m c p base, INV file s E e m c p base -> (c <> 0 \/ (e < m /\ E = g e))%nat ->
  min_key (keys (s_buf s)) = Some (tm E).
Proof.
  intros file s E e m c p base I H. pose proof (n_em _ _ _ _ _ _ _ _ I) as EM. pose proof (n_hi _ _ _ _ _ _ _ _ I) as HI.
  rewrite (n_buf _ _ _ _ _ _ _ _ I). unfold keys. rewrite map_app. change (map fst) with (@keys F). rewrite keys_real, keys_fills.
  apply min_key_is.
  - apply in_app_iff. destruct H as [H|[H ->]].
    + right. apply in_map. apply in_seq. lia.
    + left. apply live_In; [lia|]. exists e. split; [lia|auto].
  - intros x Hx. apply in_app_iff in Hx. destruct Hx as [Hx|Hx].
    + apply live_In in Hx; [|lia]. destruct Hx as (i & Hi & ->). pose proof (g_le e i). assert (E <= g i)%nat by lia.
      pose proof (st_lt (g i) E). lia.
    + apply in_map_iff in Hx. destruct Hx as (j & <- & Hj). apply in_seq in Hj. pose proof (st_lt j E). lia.
Qed.

Lemma zeros_mul0 : map mul0 zeros = zeros.
Proof. unfold zeros. clear. induction L as [|l IH]; cbn; [auto|]. f_equal. exact IH. Qed.

(** a set of the file *)
Lemma emit_real : forall file s E e m p base, INV file s E e m 0 p base -> (e < m)%nat -> E = g e ->
  (forall f, In f (recorded file) -> In (o_fom M f) (skipn (S e) TT)) -> (S e = N -> file = []) ->
  exists s' out, get_key M C s (tm E) = Ok (s', out) /\ good_set E out /\ INV file s' (S E) (S e) m 0 p base.
Proof.
  intros file s E e m p base I He HE HR HN. pose proof (n_em _ _ _ _ _ _ _ _ I) as EM. pose proof (n_lo _ _ _ _ _ _ _ _ I) as LO.
  pose proof (n_split _ _ _ _ _ _ _ _ I) as SP. destruct IDS as [ID1 ID2].
  assert (LK : lookup (tm E) (s_buf s) = Some (at_tag (tm E) p)).
  { rewrite (n_buf _ _ _ _ _ _ _ _ I), live_cons by lia. cbn. rewrite HE, Z.eqb_refl. auto. }
  assert (PF : forall f, In f p -> In f fs) by (intros f Hf; rewrite SP; apply in_app_iff; auto).
  destruct (get_entry s (tm E) (at_tag (tm E) p)) as (s' & out & G & GB & GD & GP & GF); auto.
  { assert (X : In (tm E) (tags p)).
    { apply first_seen_In. rewrite (n_first _ _ _ _ _ _ _ _ I). change (firstn m TT) with (live 0 m). apply live_In; [lia|]. exists e. split; [lia|congruence]. }
    apply in_map_iff in X. destruct X as (f & X1 & X2). intro X. assert (Y : In f (at_tag (tm E) p)) by (apply filter_In; split; auto; apply Z.eqb_eq; auto).
    rewrite X in Y. contradiction. }
  { rewrite SP, map_app in ID2. apply nodup_app, proj1 in ID2. clear - ID2. unfold at_tag. induction p as [|f p IH]; cbn; [constructor|].
    inversion ID2 as [|? ? N1 N2]; subst. destruct (Z.eqb_spec (o_fom M f) (tm E)) as [X|]; auto. cbn. constructor; auto.
    intro Y. apply N1. apply in_map_iff in Y. destruct Y as (f' & Y1 & Y2). apply filter_In in Y2. destruct Y2 as [Y2 Y3]. apply Z.eqb_eq in Y3.
    apply in_map_iff. exists f'. split; auto. congruence. }
  { intros f Hf. apply filter_In in Hf. destruct Hf as [Hf1 Hf2]. apply Z.eqb_eq in Hf2. split; auto. }
  { intros f Hf. apply filter_In in Hf. apply fs_data. apply PF. tauto. }
  exists s', out. split; auto. split.
  - split; auto. intros f Hf. destruct (GF f Hf) as [A [B|[B1 B2]]].
    + split; auto. apply filter_In, proj1, PF in B. split; [apply fs_data; auto|]. rewrite <- A. apply block_real; auto.
    + split; auto. rewrite B1. split; [apply repeat_length|]. symmetry. apply block_none. intros f' Hf' T' Y. apply B2.
      rewrite <- Y. apply (in_map (fun f => mid f)). apply filter_In. split; [|apply Z.eqb_eq; auto].
      rewrite SP in Hf'. apply in_app_iff in Hf'. destruct Hf' as [Hf'|Hf']; auto. exfalso.
      apply HR, TT_In_skipn in Hf'. destruct Hf' as (i & Hi & X). rewrite T', HE in X. apply st_inj in X. pose proof (g_lt e i). lia.
  - split; try apply I; auto; try lia.
    + rewrite GB, (n_buf _ _ _ _ _ _ _ _ I), live_cons by lia. cbn. rewrite HE, Z.eqb_refl. auto.
    + rewrite GD. apply deque_last_append. exact SEG1.
    + intros i Hi. destruct (Nat.eq_dec i e) as [->|]; [lia|]. assert (g i < E)%nat by (apply LO; lia). lia.
    + intro H. pose proof (g_lt e (S e)). lia.
    + intro H. rewrite HE. unfold total. rewrite last_grid. repeat f_equal. lia.
Qed.

(** No frame of a set that has left a full buffer comes later. *)
Lemma window_rest : forall file s E e m c p base, INV file s E e m c p base -> (c_nseg C <= m - e)%nat ->
  forall f, In f (recorded file) -> In (o_fom M f) (skipn (S e) TT).
Proof.
  intros file s E e m c p base I H f Hf. pose proof (n_em _ _ _ _ _ _ _ _ I) as EM.
  pose proof (n_rest _ _ _ _ _ _ _ _ I f Hf) as R. rewrite TT_skipn in R by lia. destruct R as [R|R]; auto. exfalso.
  apply in_split in Hf. destruct Hf as (q1 & q2 & Hq). pose proof (n_split _ _ _ _ _ _ _ _ I) as SP. rewrite Hq, app_assoc in SP.
  pose proof (WIN _ _ _ SP) as W. destruct (first_seen_prefix (tags p) (tags q1)) as [r X]. rewrite map_app, X, filter_app, app_length in W.
  rewrite (n_first _ _ _ _ _ _ _ _ I) in W.
  rewrite <- (firstn_skipn e (firstn m TT)), filter_app, app_length in W. fold (live e m) in W.
  rewrite (filter_all _ _ (live e m)) in W; [rewrite live_length in W by lia; lia|].
  intros x Hx. apply live_In in Hx; [|lia]. destruct Hx as (i & Hi & ->). apply Z.leb_le. rewrite <- R.
  pose proof (st_lt (g i) (g e)). pose proof (g_le e i). lia.
Qed.

(** a set of fill frames *)
Context (ZFOM : forall f t, o_fom M (zero_at f t) = t) (ZMID : forall f t, o_mid M (zero_at f t) = o_mid M f).
Context (ZDAT : forall f t, dat (zero_at f t) = map (fun _ => Fin 0) (dat f)).
Lemma zero_dat : forall f t, length (dat f) = L -> dat (zero_at f t) = zeros.
Proof. intros f t H. rewrite ZDAT. unfold zeros. rewrite <- H. clear. induction (dat f); cbn; f_equal; auto. Qed.
Lemma emit_fill : forall file s E e m c p base, INV file s E e m (S c) p base ->
  exists s' out, get_key M C s (tm E) = Ok (s', out) /\ good_set E out /\ INV file s' (S E) e m c p base.
Proof.
  intros file s E e m c p base I. pose proof (n_em _ _ _ _ _ _ _ _ I) as EM. pose proof (n_lo _ _ _ _ _ _ _ _ I) as LO.
  destruct (n_fill _ _ _ _ _ _ _ _ I) as [X|(He & Hc & Hs & Hb)]; [discriminate|].
  assert (NK : ~ In (tm E) (keys (map (real p) (live e m)))).
  { rewrite keys_real. intro X. apply live_In in X; [|lia]. destruct X as (i & Hi & X). apply st_inj in X. pose proof (g_le e i). lia. }
  assert (LK : lookup (tm E) (s_buf s) = Some [fill_frame base E]).
  { rewrite (n_buf _ _ _ _ _ _ _ _ I), lookup_app, lookup_none by auto. cbn. rewrite Z.eqb_refl. auto. }
  destruct (get_entry s (tm E) [fill_frame base E]) as (s' & out & G & GB & GD & GP & GF); auto; try discriminate.
  { cbn. constructor; auto. constructor. }
  { intros f [<-|[]]. split; [unfold fill_frame; rewrite ZMID; apply Hb|apply ZFOM]. }
  { intros f [<-|[]]. unfold fill_frame. rewrite zero_dat by apply Hb. apply zeros_mul0. }
  exists s', out. split; auto.
  assert (BZ : forall i, blk E i = zeros).
  { intro a. apply block_none. intros f Hf HT. exfalso. destruct (fs_grid f Hf) as (i & Hi & X). rewrite HT in X. apply st_inj in X.
    destruct (Nat.lt_ge_cases i e) as [Y|Y]; [specialize (LO i Y); lia|]. pose proof (g_le e i Y Hi). lia. }
  split.
  - split; auto. intros f Hf. destruct (GF f Hf) as [A [[<-|[]]|[B _]]].
    + split; auto. unfold fill_frame. rewrite zero_dat by apply Hb. split; [apply repeat_length|]. rewrite BZ. auto.
    + split; auto. rewrite B. split; [apply repeat_length|]. rewrite BZ. auto.
  - split; try apply I; auto; try lia.
    + rewrite GB, (n_buf _ _ _ _ _ _ _ _ I), remove_app by auto. f_equal. cbn. rewrite Z.eqb_refl. auto.
    + rewrite GD. apply deque_last_append. exact SEG1.
    + intros i Hi. specialize (LO i Hi). lia.
    + destruct c; [left; auto|right]. repeat split; auto; try apply Hb. lia.
Qed.


(** *** Reading from the file *)
Lemma INV_length : forall file s E e m c p base, INV file s E e m c p base -> length (s_buf s) = (m - e + c)%nat.
Proof.
  intros file s E e m c p base I. rewrite (n_buf _ _ _ _ _ _ _ _ I), app_length, map_length. unfold fills.
  rewrite map_length, seq_length, live_length by apply I. auto.
Qed.
Lemma more : forall lim x file s E e m p base r fr b y, INV file s E e m 0 p base -> breaks_ok lim x file ->
  take_frames lim k x file = (r, fr, b, y) ->
  exists s' m', append M s fr = Ok s' /\ INV r s' E e m' 0 (p ++ fr) base /\ (length fr <= k)%nat /\
    (b = true -> r = [] /\ m' = N /\ (m' < m + k)%nat) /\
    (b = false -> (length r < length file)%nat /\ breaks_ok lim y r /\ exists pre, file = pre ++ r /\ length pre = k /\ recorded pre = fr).
Proof.
  intros lim x file s E e m p base r fr b y I BO R. pose proof (n_em _ _ _ _ _ _ _ _ I) as EM.
  destruct (take_ok _ _ _ _ _ _ _ _ _ R (INV_tail _ _ _ _ _ _ _ _ I) BO) as (pre & F1 & F2 & F3 & F4 & F5).
  assert (B : BUF s p e m).
  { split; try apply I.
    - rewrite (n_buf _ _ _ _ _ _ _ _ I). cbn [fills seq map]. apply app_nil_r.
    - eexists. split; [apply I|]. apply n_done_lt; apply I. }
  assert (SP : fs = p ++ fr ++ recorded r) by (rewrite <- F2; apply I).
  destruct (append_real fr s p e m (recorded r) B SP) as (s' & m' & A & B' & D & M').
  { intros f Hf. apply (n_rest _ _ _ _ _ _ _ _ I). rewrite F2. apply in_app_iff. auto. }
  exists s', m'. split; auto.
  assert (I' : INV r s' E e m' 0 (p ++ fr) base).
  { split; try apply I; try apply B'.
    - rewrite <- app_assoc. auto.
    - destruct (n_suffix _ _ _ _ _ _ _ _ I) as [pre0 X]. exists (pre0 ++ pre). rewrite X, F1, app_assoc. auto.
    - rewrite (b_buf _ _ _ _ B'). cbn [fills seq map]. rewrite app_nil_r. auto.
    - rewrite D. apply I.
    - intros f Hf. apply (n_rest _ _ _ _ _ _ _ _ I). rewrite F2. apply in_app_iff. auto.
    - left. auto.
    - intro X. apply (n_end _ _ _ _ _ _ _ _ I) in X. rewrite X in F1. symmetry in F1. apply app_eq_nil in F1. tauto. }
  split; auto. split; auto. split.
  - intro Hb. destruct (F4 Hb) as [-> Hlen]. pose proof (INV_m_end _ _ _ _ _ _ _ _ I' eq_refl). split; auto. split; auto. lia.
  - intro Hb. destruct (F5 Hb) as (Hp & Hr & Hb'). split; [rewrite F1, app_length; lia|]. split; auto. exists pre. auto.
Qed.

Lemma possible_ne : c_possible C <> [].
Proof. intro X. rewrite X in KR. cbn in KR. lia. Qed.
Lemma good_ne : forall j out, good_set j out -> out <> [].
Proof. intros j out [HP HF] ->. apply Permutation_nil in HP. apply possible_ne. auto. Qed.
Lemma get_min : forall s t, (c_nseg C <= length (s_buf s))%nat -> min_key (keys (s_buf s)) = Some t ->
  peek C true s = Some t /\ get M C s = match get_key M C s t with Ok (s', o) => Ok (s', Some o) | Raise e => Raise e end.
Proof.
  intros s t H1 H2. assert (P : peek C true s = Some t).
  { unfold peek, filled. destruct (Nat.ltb_spec (length (s_buf s)) (c_nseg C)); [lia|]. auto. }
  split; auto. unfold get. rewrite P. auto.
Qed.
Lemma get_none : forall s, (length (s_buf s) < c_nseg C)%nat -> peek C true s = None /\ get M C s = Ok (s, None).
Proof.
  intros s H. assert (P : peek C true s = None).
  { unfold peek, filled. destruct (Nat.ltb_spec (length (s_buf s)) (c_nseg C)); [auto|lia]. }
  split; auto. unfold get. rewrite P. auto.
Qed.

(** *** The end of the file *)
Lemma flush_ok : forall d n s E0 E e p base, (d = N - e)%nat -> INV [] s E e N 0 p base ->
  ((e < N)%nat -> E = g e) -> (forall i, (e <= i)%nat -> (S i < N)%nat -> g (S i) = S (g i)) -> (E0 <= E < E0 + n)%nat ->
  exists s' E' e', flush_sets M C dat place skip ignore n s (live e N) (accE E0 E) (E - E0) = Ok (s', accE E0 E', (E' - E0)%nat) /\
    INV [] s' E' e' N 0 p base /\ E' = Nat.min (E0 + n) total /\ (e <= e')%nat.
Proof.
  induction d as [|d IH]; intros n s E0 E e p base Hd I GE NG HE; pose proof (n_em _ _ _ _ _ _ _ _ I) as EM.
  - assert (e = N) by lia. subst e. rewrite live_nil. exists s, E, N. split; auto. split; auto.
    pose proof (n_endE _ _ _ _ _ _ _ _ I eq_refl). lia.
  - assert (He : (e < N)%nat) by lia. specialize (GE He).
    rewrite live_cons by lia. cbn [flush_sets].
    destruct (emit_real _ _ _ _ _ _ _ I He GE) as (s3 & out & G3 & GS & I3); auto.
    { intros f []. }
    rewrite GE in G3. rewrite G3. cbn [bind]. rewrite put_ok by (eauto using good_ne; lia). cbn [bind].
    pose proof (g_total e He) as GT.
    destruct (Nat.eqb_spec (S (E - E0)) n) as [X|X].
    + exists s3, (S E), (S e). split; [do 3 f_equal; lia|]. split; auto. lia.
    + replace (S (E - E0)) with (S E - E0)%nat by lia.
      destruct (IH n s3 E0 (S E) (S e) p base) as (s' & E' & e' & A1 & A2 & A3 & A4); auto; try lia.
      * intro X'. rewrite NG by lia. lia.
      * intros i Hi Hi'. apply NG; lia.
      * exists s', E', e'. split; auto. split; auto. split; auto. lia.
Qed.

Definition ending (file : list (cslot F)) (E e m c : nat) : Prop :=
  file = [] /\ m = N /\ c = 0%nat /\ ((e < N)%nat -> E = g e) /\ (forall i, (e <= i)%nat -> (S i < N)%nat -> g (S i) = S (g i)).

Lemma E_total : forall file s E e m c p base, INV file s E e m c p base -> (E <= total)%nat.
Proof.
  intros file s E e m c p base I. pose proof (n_em _ _ _ _ _ _ _ _ I). destruct (Nat.eq_dec e N) as [Z|Z]; [apply (n_endE _ _ _ _ _ _ _ _ I) in Z; lia|].
  pose proof (n_hi _ _ _ _ _ _ _ _ I). pose proof (g_total e). lia.
Qed.
Lemma E_end : forall file s E e m c p base, INV file s E e m c p base -> (total <= E)%nat -> e = N.
Proof.
  intros file s E e m c p base I H. pose proof (n_em _ _ _ _ _ _ _ _ I). destruct (Nat.eq_dec e N) as [Z|Z]; auto.
  pose proof (n_hi _ _ _ _ _ _ _ _ I). pose proof (g_total e). lia.
Qed.
Lemma finish_ok : forall n pos bf file s E0 E e m c p base eof, INV file s E e m c p base -> (E0 <= E <= E0 + n)%nat -> (1 <= n)%nat -> (E0 < total)%nat ->
  (E = (E0 + n)%nat \/ (eof = true /\ ending file E e m c)) ->
  exists s' E' e' m' c' p' base',
    finish M C dat place skip ignore n pos bf (file, s, accE E0 E, (E - E0)%nat, eof) =
      Ok (mkCF file (pos + Z.of_nat (bf - length file)) s' (Some (tagE E')), ((E' - E0)%nat, Some (tm E0), map (rowE E0 (E' - E0)) (seq 0 k))) /\
    INV file s' E' e' m' c' p' base' /\ E' = Nat.min (E0 + n) total.
Proof.
  intros n pos bf file s E0 E e m c p base eof I HE Hn HT HC.
  assert (POST : exists s2 E2 e2 m2 c2 p2 b2, (if eof && negb (E - E0 =? n)%nat then flush_sets M C dat place skip ignore n s (keys (s_buf s)) (accE E0 E) (E - E0) else Ok (s, accE E0 E, (E - E0)%nat))
      = Ok (s2, accE E0 E2, (E2 - E0)%nat) /\ INV file s2 E2 e2 m2 c2 p2 b2 /\ E2 = Nat.min (E0 + n) total).
  { pose proof (E_total _ _ _ _ _ _ _ _ I) as ET. destruct (Nat.eqb_spec (E - E0) n) as [Y|Y].
    - rewrite andb_false_r. exists s, E, e, m, c, p, base. split; auto. split; auto. lia.
    - destruct HC as [HC|[-> (D1 & D2 & D3 & D4 & D5)]]; [lia|]. subst file m c. cbn [negb andb].
      destruct (flush_ok (N - e) n s E0 E e p base) as (s2 & E2 & e2 & F1 & F2 & F3 & _); auto; [lia|].
      exists s2, E2, e2, N, 0%nat, p, base. split; auto. rewrite <- F1. f_equal.
      rewrite (n_buf _ _ _ _ _ _ _ _ I). cbn [fills seq map]. rewrite app_nil_r. apply keys_real. }
  destruct POST as (s2 & E2 & e2 & m2 & c2 & p2 & b2 & P1 & P2 & P3). unfold finish. rewrite P1. cbn [bind].
  destruct (Nat.eqb_spec (E2 - E0) 0); [lia|]. cbn [andb].
  exists s2, E2, e2, m2, c2, p2, b2. split; auto. do 3 f_equal. unfold accE. cbn [g_time]. unfold timeE.
  destruct (E2 - E0)%nat eqn:Q; [lia|]. auto.
Qed.

Lemma start_ok : forall (l : cfile F) E, (cf_tag l = Some (tagE E) \/ (cf_tag l = None /\ E = 0%nat)) -> start k l = accE E E.
Proof.
  intros l E H. unfold start, accE. rewrite Nat.sub_diag. f_equal.
  - destruct H as [->|[-> ->]]; auto.
  - assert (X : forall a b, map (rowE E 0) (seq a b) = repeat [] b).
    { intros a b. revert a. induction b as [|b IH]; intro a; auto. cbn [seq map repeat]. rewrite IH. f_equal. unfold rowE. destruct (idof a); auto. }
    symmetry. apply X.
Qed.
Lemma not_nothing : forall l E e m c p base, INV (cf_left l) (cf_buf l) E e m c p base -> (E < total)%nat -> nothing_left l = false.
Proof.
  intros l E e m c p base I HE. unfold nothing_left. destruct (cf_left l) as [|x r] eqn:EF; auto.
  unfold is_empty. destruct (s_buf (cf_buf l)) eqn:EB; auto. exfalso.
  pose proof (INV_m_end _ _ _ _ _ _ _ _ I eq_refl) as MN. pose proof (INV_length _ _ _ _ _ _ _ _ I) as LN. rewrite EB in LN. cbn in LN.
  pose proof (n_em _ _ _ _ _ _ _ _ I). assert (EN : e = N) by lia. apply (n_endE _ _ _ _ _ _ _ _ I) in EN. lia.
Qed.
Lemma nothing : forall l E e m c p base, INV (cf_left l) (cf_buf l) E e m c p base -> (total <= E)%nat -> nothing_left l = true.
Proof.
  intros l E e m c p base I HE. pose proof (E_end _ _ _ _ _ _ _ _ I HE) as EN. pose proof (n_end _ _ _ _ _ _ _ _ I EN) as NE.
  unfold nothing_left. rewrite NE. pose proof (INV_length _ _ _ _ _ _ _ _ I) as LN. pose proof (n_em _ _ _ _ _ _ _ _ I).
  destruct (n_fill _ _ _ _ _ _ _ _ I) as [X|X]; [|lia]. unfold is_empty. destruct (s_buf (cf_buf l)); auto. cbn in LN. lia.
Qed.
Lemma rows_nth : forall E0 n i, In i (c_possible C) -> nth (rid i) (map (rowE E0 n) (seq 0 k)) [] = map (fun j => blk (E0 + j) i) (seq 0 n).
Proof.
  intros E0 n i H. pose proof (RLT i H) as RL. apply nth_error_nth. rewrite nth_error_seq by auto. cbn [plus]. unfold rowE. rewrite idof_rid by auto. auto.
Qed.
Lemma INV_start : forall base, INV file0 (init C 0) 0 0 0 0 [] base.
Proof.
  intro base. split; auto; try lia.
  - exists []. auto.
  - unfold init. cbn [s_done]. destruct (c_nseg C); [lia|auto].
  - intros f Hf. apply (TT_In_skipn 0). destruct (fs_grid f Hf) as (i & Hi & ->). exists i. split; [lia|auto].
  - intro X. pose proof N_pos. lia.
  - intro X. pose proof N_pos. lia.
Qed.
Definition okTag (tag : option Z) (E : nat) : Prop := tag = Some (tagE E) \/ (tag = None /\ E = 0%nat).
Notation io := (in_order (o_fom M) (o_mid M) dat (fun i => In i (c_possible C)) k rid file0 t0 skip L total).

(** *** CORFile.read *)
Section Cor.
Context (NG : forall i, (i < N)%nat -> g i = i).
Lemma ng_E : forall file s E e m p base, INV file s E e m 0 p base -> E = e.
Proof.
  intros file s E e m p base I. pose proof (n_em _ _ _ _ _ _ _ _ I) as EM. pose proof (n_lo _ _ _ _ _ _ _ _ I) as LO. pose proof (n_hi _ _ _ _ _ _ _ _ I) as HI.
  destruct (Nat.eq_dec e N) as [X|X].
  - rewrite (n_endE _ _ _ _ _ _ _ _ I X). unfold total. rewrite last_grid, NG by (pose proof N_pos; lia). pose proof N_pos. lia.
  - rewrite NG in HI by lia. destruct e as [|e]; [lia|]. specialize (LO e). rewrite NG in LO by lia. lia.
Qed.
Lemma ng_ending : forall s E e p base, INV [] s E e N 0 p base -> ending [] E e N 0.
Proof.
  intros s E e p base I. repeat split; auto.
  - intro H. rewrite NG by auto. eapply ng_E. eauto.
  - intros i Hi HN. rewrite !NG by lia. auto.
Qed.
Lemma cor_loop_ok : forall fuel n file s E0 E e m p base eof, INV file s E e m 0 p base -> (E0 <= E <= E0 + n)%nat ->
  (eof = true -> file = []) -> (length file + (if eof then 0 else 1) < fuel)%nat ->
  exists file' s' E' e' m' p' eof',
    cor_loop M C dat place k skip ignore fuel n file s (accE E0 E) (E - E0) eof = Ok (file', s', accE E0 E', (E' - E0)%nat, eof') /\
    INV file' s' E' e' m' 0 p' base /\ (E <= E' <= E0 + n)%nat /\ (E' = E0 + n \/ (eof' = true /\ ending file' E' e' m' 0))%nat.
Proof.
  induction fuel as [|fuel IH]; intros n file s E0 E e m p base eof I HE HD HF; [lia|]. cbn [cor_loop].
  destruct (eof || (E - E0 =? n)%nat) eqn:ST.
  - exists file, s, E, e, m, p, eof. split; [reflexivity|]. split; [exact I|]. split; [lia|].
    apply orb_true_iff in ST. destruct ST as [->|ST]; [right|left; apply Nat.eqb_eq in ST; lia]. split; auto.
    specialize (HD eq_refl). subst file. pose proof (INV_m_end _ _ _ _ _ _ _ _ I eq_refl) as X. subst m. eapply ng_ending. eauto.
  - apply orb_false_iff in ST. destruct ST as [-> ST]. apply Nat.eqb_neq in ST.
    destruct (take_frames None k 0 file) as [[[r fr] b] y] eqn:R.
    assert (BK : breaks_ok None 0 file) by (apply breaks_start; discriminate).
    destruct (more _ _ _ _ _ _ _ _ _ _ _ _ _ I BK R) as (s1 & m1 & A & I1 & _ & Hend & Hgo).
    rewrite A. cbn [bind].
    assert (HF' : (length r + (if b then 0 else 1) < fuel)%nat).
    { destruct b; [destruct (Hend eq_refl) as [-> _]; cbn; lia|]. destruct (Hgo eq_refl) as [X _]. lia. }
    assert (HD' : b = true -> r = []) by (intro X; apply (Hend X)).
    pose proof (INV_length _ _ _ _ _ _ _ _ I1) as LN. pose proof (n_em _ _ _ _ _ _ _ _ I1) as EM.
    destruct (Nat.lt_ge_cases (length (s_buf s1)) (c_nseg C)) as [NF|FL].
    + destruct (get_none s1 NF) as [_ ->]. cbn [bind]. eapply IH; eauto.
    + pose proof (ng_E _ _ _ _ _ _ _ I1) as EE. assert (Hem : (e < m1)%nat) by lia.
      assert (EG : E = g e) by (rewrite NG by lia; auto).
      destruct (get_min s1 (tm E) FL) as [_ G]. { eapply INV_min; eauto. }
      destruct (emit_real _ _ _ _ _ _ _ I1 Hem EG) as (s3 & out & G3 & GS & I3).
      { apply (window_rest _ _ _ _ _ _ _ _ I1). lia. } { intro X. lia. }
      rewrite G, G3. cbn [bind]. rewrite put_ok by (eauto using good_ne; lia). cbn [bind].
      replace (S (E - E0)) with (S E - E0)%nat by lia.
      destruct (IH n r s3 E0 (S E) (S e) m1 (p ++ fr) base b) as (f' & s' & E' & e2 & m2 & p2 & eo2 & L1 & L2 & L3 & L4); auto; try lia.
      exists f', s', E', e2, m2, p2, eo2. split; auto. split; auto. split; [lia|auto].
Qed.
Lemma cor_calls_ok : forall ns l E e m p base, INV (cf_left l) (cf_buf l) E e m 0 p base -> Forall (fun n => (1 <= n)%nat) ns -> okTag (cf_tag l) E ->
  io E ns (calls (fun n => cor_read M C dat place k skip ignore (Some n)) ns l).
Proof.
  induction ns as [|n ns IH]; intros l E e m p base I HN HT; [constructor|]. apply Forall_cons_iff in HN; destruct HN as [N1 N2].
  cbn [calls]. unfold cor_read. destruct (Nat.lt_ge_cases E total) as [HE|HE].
  - rewrite (not_nothing _ _ _ _ _ _ _ I HE). rewrite (start_ok _ _ HT).
    destruct (cor_loop_ok (length (cf_left l) + n + 2) n (cf_left l) (cf_buf l) E E e m p base false I) as (f1 & s1 & E1 & e1 & m1 & p1 & eo1 & L1 & L2 & L3 & L4); try lia; try discriminate.
    rewrite Nat.sub_diag in L1. rewrite L1. cbn [bind].
    destruct (finish_ok n (cf_pos l) (length (cf_left l)) f1 s1 E E1 e1 m1 0%nat p1 base eo1) as (s' & E' & e' & m' & c' & p' & base' & R & I' & EE); auto; try lia.
    rewrite R.
    assert (C0 : c' = 0%nat) by (destruct (n_fill _ _ _ _ _ _ _ _ I') as [X|(X1 & X2 & _)]; auto; rewrite NG in X2 by auto;
      pose proof (n_lo _ _ _ _ _ _ _ _ I') as LO; destruct e' as [|e'']; [lia|]; specialize (LO e''); rewrite NG in LO by lia; lia).
    subst c'. replace E' with (E + (E' - E))%nat in I' by lia.
    apply io_read; auto; try lia.
    + rewrite map_length, seq_length. auto.
    + intros i Hi. apply rows_nth. auto.
    + eapply IH; eauto. left. cbn [cf_tag]. do 2 f_equal. lia.
  - rewrite (nothing _ _ _ _ _ _ _ I HE). apply io_end. auto.
Qed.
Theorem cor_in_order : forall pos ns, Forall (fun n => (1 <= n)%nat) ns ->
  io 0 ns (calls (fun n => cor_read M C dat place k skip ignore (Some n)) ns (open_cf C pos file0)).
Proof.
  intros pos ns H. assert (B : exists base : F, True).
  { assert (X : In (hd 0 TT) TT). { pose proof N_pos as NP. rewrite <- TT_len in NP. destruct TT; [cbn in NP; lia|left; auto]. }
    unfold TT in X at 2. rewrite <- (rc_order _ _ _ _ _ _ _ RC) in X. apply (proj1 (first_seen_In _ _)) in X. apply in_map_iff in X. destruct X as (f & _). eauto. }
  destruct B as [base _]. apply cor_calls_ok with (e := 0%nat) (m := 0%nat) (p := []) (base := base); auto.
  - apply INV_start.
  - right. auto.
Qed.
End Cor.


(** *** TBXFile.read *)
Section Tbx.
Context (SKIP : skip = 8192 \/ skip < 8192) (GAPS : gaps_fillable (c_nseg C) k skip autofill grid file0)
        (BREAKS : short_breaks skip_limit file0).

Lemma zero_sets_fill : forall base n x i, skip = 8192 -> usable base ->
  zero_sets zero_at base (tm x) (Z.of_nat (S i)) n = map (fill_frame base) (seq (x + S i) n).
Proof.
  intros base n. induction n as [|n IH]; intros x i HS U; auto. cbn [zero_sets seq map]. f_equal.
  - unfold fill_frame. f_equal. unfold set_time, tbx_step. lia.
  - replace (Z.of_nat (S i) + 1) with (Z.of_nat (S (S i))) by lia. rewrite IH by auto. repeat f_equal. lia.
Qed.
Lemma append_fills : forall base n a s d, deque_last (s_done s) = Some d -> d < tm a ->
  (forall j, (a <= j < a + n)%nat -> ~ In (tm j) (keys (s_buf s))) ->
  exists s', append M s (map (fill_frame base) (seq a n)) = Ok s' /\ s_buf s' = s_buf s ++ fills base a n /\ s_done s' = s_done s.
Proof.
  intros base n. induction n as [|n IH]; intros a s d Hd Hlt NK.
  - exists s. cbn. rewrite app_nil_r. auto.
  - cbn [seq map append]. rewrite (append_one_new M C SEG1 s (fill_frame base a) d Hd) by (unfold fill_frame; rewrite ZFOM; auto).
    replace (o_fom M (fill_frame base a)) with (tm a) by (symmetry; apply ZFOM). rewrite add_frame_new by (apply NK; lia).
    match goal with |- context [append M ?s0 _] => destruct (IH (S a) s0 d) as (s' & A & B & D) end; auto.
    { rewrite st_S. pose proof skip_pos. lia. }
    { intros j Hj X. cbn [s_buf] in X. unfold keys in X. rewrite map_app, in_app_iff in X. destruct X as [X|[X|[]]].
      - apply (NK j); auto. lia.
      - cbn in X. apply st_inj in X. lia. }
    exists s'. split; auto. split; [|auto]. rewrite B. cbn [s_buf]. rewrite <- app_assoc. auto.
Qed.

Definition some_gap : Prop := exists i, (S i < N)%nat /\ g (S i) <> S (g i).
Definition CFok (cf : option (list F)) : Prop :=
  some_gap -> match cf with None => True | Some l => exists f r, l = f :: r /\ usable f end.

Lemma gap_at : forall file s E e m c p base, INV file s E e m c p base -> (e < N)%nat -> (E < g e)%nat ->
  exists i, e = S i /\ (g i < E)%nat /\ Z.of_nat (g e - E) < autofill /\ (e + c_nseg C + k <= N)%nat /\ skip = 8192 /\ some_gap.
Proof.
  intros file s E e m c p base I He HE. destruct e as [|i]; [rewrite g_0 in HE; lia|]. exists i. split; auto.
  assert (LO : (g i < E)%nat) by (apply (n_lo _ _ _ _ _ _ _ _ I); lia). split; auto.
  destruct (GAPS i) as (D & A & B & _); auto; [lia|]. split; [lia|]. split; [lia|]. split; auto.
  exists i. split; [lia|lia].
Qed.

Lemma gap_none : forall s cf E, tbx_gap M zero_at autofill s cf (tm E) (tagE E) = Ok s.
Proof.
  intros s cf E. unfold tbx_gap, tagE, tbx_step. destruct E as [|x]; auto. rewrite st_S.
  destruct SKIP as [-> | SK]; [rewrite Z.eqb_refl, orb_true_r; auto|].
  destruct ((tm x =? 0) || (tm x + skip =? tm x + 8192)); auto. cbv zeta.
  assert (X : (tm x + skip - tm x - 8192) / 8192 < 0) by (apply Z.div_lt_upper_bound; lia).
  destruct (_ && _); auto. destruct (Z.to_nat _) eqn:Y; auto. lia.
Qed.

Lemma gap_some : forall file s E e m p base cf, INV file s E e m 0 p base -> (E < g e)%nat -> (c_nseg C <= m - e)%nat -> CFok cf ->
  exists s' base', tbx_gap M zero_at autofill s cf (tm (g e)) (tagE E) = Ok s' /\ INV file s' E e m (g e - E) p base'.
Proof.
  intros file s E e m p base cf I HE HS HC. pose proof (n_em _ _ _ _ _ _ _ _ I) as EM.
  destruct (gap_at _ _ _ _ _ _ _ _ I ltac:(lia) HE) as (i & Ei & Hg & HA & _ & H0 & SG).
  destruct E as [|x]; [lia|]. unfold tbx_gap, tagE, tbx_step.
  destruct (Z.eqb_spec (tm x) 0) as [Z0|_]; [destruct (st_nz _ Z0)|].
  destruct (Z.eqb_spec (tm (g e)) (tm x + 8192)) as [Z1|_]; [rewrite <- H0, <- st_S in Z1; apply st_inj in Z1; lia|]. cbn [orb]. cbv zeta.
  assert (D : tm (g e) - tm x - 8192 = Z.of_nat (g e - S x) * 8192) by (rewrite <- H0; unfold set_time; nia).
  rewrite D, Z.mod_mul, Z.div_mul by lia. cbn [Z.eqb andb].
  destruct (Z.ltb_spec (Z.of_nat (g e - S x)) autofill) as [_|]; [|lia]. rewrite Nat2Z.id.
  assert (BASE : exists f, match cf with Some l => nth_error l 0 | None => match lookup (tm (g e)) (s_buf s) with Some l => nth_error l 0 | None => None end end = Some f /\ usable f).
  { specialize (HC SG). destruct cf as [l|].
    - destruct HC as (f & r & -> & U). exists f. auto.
    - rewrite (n_buf _ _ _ _ _ _ _ _ I), live_cons by lia. cbn [map app real lookup]. rewrite Z.eqb_refl.
      assert (X : In (tm (g e)) (tags p)).
      { apply first_seen_In. rewrite (n_first _ _ _ _ _ _ _ _ I). change (firstn m TT) with (live 0 m). apply live_In; [lia|]. exists e. split; [lia|auto]. }
      apply in_map_iff in X. destruct X as (f & X1 & X2).
      assert (Y : In f (at_tag (tm (g e)) p)) by (apply filter_In; split; auto; apply Z.eqb_eq; auto).
      destruct (at_tag (tm (g e)) p) as [|f' r] eqn:Q; [contradiction|]. exists f'. split; auto.
      assert (Z : In f' fs). { rewrite (n_split _ _ _ _ _ _ _ _ I). apply in_app_iff. left. assert (In f' (at_tag (tm (g e)) p)) by (rewrite Q; left; auto).
        apply filter_In in H. tauto. }
      split; [apply IDS; auto|apply fs_data; auto]. }
  destruct BASE as (f & -> & U). clear HA D. destruct (g e - S x)%nat as [|n] eqn:En; [lia|]. rewrite <- En. clear n En.
  change 1 with (Z.of_nat 1). rewrite (zero_sets_fill f _ x 0 H0 U). replace (x + 1)%nat with (S x) by lia.
  destruct (append_fills f (g e - S x) (S x) s (tm x)) as (s' & A & B & Dn).
  { exact (n_done _ _ _ _ _ _ _ _ I). } { apply st_lt. lia. }
  { intros j Hj X. rewrite (n_buf _ _ _ _ _ _ _ _ I) in X. cbn [fills seq map] in X. rewrite app_nil_r, keys_real in X.
    apply live_In in X; [|lia]. destruct X as (i' & Hi' & X). apply st_inj in X. pose proof (g_le e i'). lia. }
  exists s', f. split; [exact A|]. split; try apply I.
  - rewrite B, (n_buf _ _ _ _ _ _ _ _ I). cbn [fills seq map]. rewrite app_nil_r. auto.
  - rewrite Dn. apply I.
  - right. repeat split; auto; try lia; apply U.
Qed.

(** *** One turn of the loop once the buffer is full *)
Definition END (e m c : nat) (file : list (cslot F)) : Prop := c = 0%nat /\ file = [] /\ m = N /\ (N < e + c_nseg C + k)%nat.

Lemma nogap : forall file s E e m p base, INV file s E e m 0 p base -> (e < N)%nat -> (N < e + c_nseg C + k)%nat -> E = g e.
Proof.
  intros file s E e m p base I He HN. pose proof (n_hi _ _ _ _ _ _ _ _ I He) as HI. destruct (Nat.eq_dec E (g e)); auto.
  destruct (gap_at _ _ _ _ _ _ _ _ I He) as (i & _ & _ & _ & X & _); lia.
Qed.
Lemma good_CF : forall j out, good_set j out -> out <> [] /\ CFok (Some out).
Proof.
  intros j out GS. pose proof (good_ne _ _ GS) as NE. split; auto. destruct GS as [HP HF].
  intros _. destruct out as [|f r]; [congruence|]. exists f, r. split; auto. split; [|apply HF; left; auto].
  eapply Permutation_in; [exact HP|]. left. auto.
Qed.

Lemma turn : forall n file s E0 E e m c p base cf, INV file s E e m c p base -> (c_nseg C <= length (s_buf s))%nat ->
  (E0 <= E)%nat -> (E - E0 < n)%nat -> (CFok cf \/ END e m c file) ->
  exists ct s2 s3 out e' c' base', peek C true s = Some ct /\
    tbx_gap M zero_at autofill s cf ct (g_tag (accE E0 E)) = Ok s2 /\ get M C s2 = Ok (s3, Some out) /\
    put_set M dat place skip ignore n (accE E0 E) out = Ok (accE E0 (S E)) /\ CFok (Some out) /\ INV file s3 (S E) e' m c' p base' /\
    (END e m c file -> END e' m c' file).
Proof.
  intros n file s E0 E e m c p base cf I HL H0 Hn HC. pose proof (n_em _ _ _ _ _ _ _ _ I) as EM.
  rewrite (INV_length _ _ _ _ _ _ _ _ I) in HL. change (g_tag (accE E0 E)) with (tagE E).
  (* the emission, once there is no gap *)
  assert (EMIT : forall s2 c2 base2, INV file s2 E e m c2 p base2 -> (c_nseg C <= m - e + c2)%nat -> (c2 <> 0 \/ (e < m /\ E = g e))%nat ->
    exists s3 out e' c', get M C s2 = Ok (s3, Some out) /\ put_set M dat place skip ignore n (accE E0 E) out = Ok (accE E0 (S E)) /\ CFok (Some out) /\
      INV file s3 (S E) e' m c' p base2 /\ (e <= e')%nat /\ (c2 = 0 -> c' = 0)%nat).
  { intros s2 c2 base2 I2 HL2 HM. pose proof (INV_min _ _ _ _ _ _ _ _ I2 HM) as MK.
    destruct (get_min s2 (tm E)) as [_ G]; auto. { rewrite (INV_length _ _ _ _ _ _ _ _ I2). auto. }
    destruct c2 as [|c2].
    - destruct HM as [X|[He HE]]; [congruence|].
      destruct (emit_real _ _ _ _ _ _ _ I2 He HE) as (s3 & out & G3 & GS & I3).
      { apply (window_rest _ _ _ _ _ _ _ _ I2). lia. } { lia. }
      destruct (good_CF _ _ GS) as [NE CF']. exists s3, out, (S e), 0%nat. rewrite G, G3.
      repeat split; auto; try apply I3; try lia. apply put_ok; auto.
    - destruct (emit_fill _ _ _ _ _ _ _ _ I2) as (s3 & out & G3 & GS & I3).
      destruct (good_CF _ _ GS) as [NE CF']. exists s3, out, e, c2. rewrite G, G3.
      split; auto. split; [apply put_ok; auto|]. repeat split; auto; try apply I3; lia. }
  destruct (Nat.eq_dec c 0) as [->|Hc].
  - assert (He : (e < m)%nat) by lia.
    destruct (Nat.eq_dec E (g e)) as [HE|HE].
    + pose proof (INV_min _ _ _ _ _ _ _ _ I (or_intror (conj He HE))) as MK.
      destruct (get_min s (tm E)) as [P _]; auto. { rewrite (INV_length _ _ _ _ _ _ _ _ I). auto. }
      destruct (EMIT s 0%nat base I) as (s3 & out & e' & c' & A1 & A2 & A3 & A4 & A5 & A6); auto.
      exists (tm E), s, s3, out, e', c', base. rewrite gap_none. split; auto. split; auto. split; auto. split; auto. split; auto. split; auto.
      intros (D1 & D2 & D3 & D4). repeat split; auto. lia.
    + pose proof (n_hi _ _ _ _ _ _ _ _ I). assert (HE' : (E < g e)%nat) by lia.
      assert (NE : ~ END e m 0 file).
      { intros (D1 & D2 & D3 & D4). apply HE. apply (nogap _ _ _ _ _ _ _ I); lia. }
      destruct HC as [HC|HC]; [|contradiction].
      destruct (gap_some _ _ _ _ _ _ _ cf I HE') as (s2 & base2 & AF & I2); auto; [lia|].
      assert (MK : min_key (keys (s_buf s)) = Some (tm (g e))).
      { rewrite (n_buf _ _ _ _ _ _ _ _ I). cbn [fills seq map]. rewrite app_nil_r, keys_real. apply min_key_is.
        - apply live_In; [lia|]. exists e. split; [lia|auto].
        - intros x Hx. apply live_In in Hx; [|lia]. destruct Hx as (i & Hi & ->). pose proof (g_le e i). pose proof (st_lt (g i) (g e)). lia. }
      destruct (get_min s (tm (g e))) as [P _]; auto. { rewrite (INV_length _ _ _ _ _ _ _ _ I). auto. }
      destruct (EMIT s2 (g e - E)%nat base2 I2) as (s3 & out & e' & c' & A1 & A2 & A3 & A4 & A5 & A6); [lia|lia|].
      exists (tm (g e)), s2, s3, out, e', c', base2. split; auto. split; auto. split; auto. split; auto. split; auto. split; auto.
      intro D. contradiction.
  - pose proof (INV_min _ _ _ _ _ _ _ _ I (or_introl Hc)) as MK.
    destruct (get_min s (tm E)) as [P _]; auto. { rewrite (INV_length _ _ _ _ _ _ _ _ I). auto. }
    destruct (EMIT s c base I) as (s3 & out & e' & c' & A1 & A2 & A3 & A4 & A5 & A6); auto.
    exists (tm E), s, s3, out, e', c', base. rewrite gap_none. split; auto. split; auto. split; auto. split; auto. split; auto. split; auto.
    intros (D1 & _). contradiction.
Qed.

(** *** The loop *)
Lemma read_more : forall x file s E e m c p base r fr b y, INV file s E e m c p base -> (length (s_buf s) <= c_nseg C)%nat ->
  breaks_ok (Some skip_limit) x file -> take_frames (Some skip_limit) k x file = (r, fr, b, y) ->
  exists s' p' m', append M s fr = Ok s' /\ INV r s' E e m' 0 p' base /\ (b = true -> END e m' 0 r) /\
    (b = false -> CFok (Some fr)) /\ (b = false -> (length r < length file)%nat /\ breaks_ok (Some skip_limit) y r).
Proof.
  intros x file s E e m c p base r fr b y I HL BO R. rewrite (INV_length _ _ _ _ _ _ _ _ I) in HL. pose proof (n_em _ _ _ _ _ _ _ _ I) as EM.
  assert (c = 0)%nat by (destruct (n_fill _ _ _ _ _ _ _ _ I) as [X|X]; lia). subst c.
  destruct (more _ _ _ _ _ _ _ _ _ _ _ _ _ I BO R) as (s' & m' & A & I' & HLen & HT & HF).
  exists s', (p ++ fr), m'. split; auto. split; auto. split; [|split].
  - intro Hb. destruct (HT Hb) as (-> & -> & Hlen). repeat split; auto. lia.
  - intros Hb [i [Hi Hg]]. destruct (HF Hb) as (_ & _ & pre & F1 & Hp & Hr). destruct (GAPS i Hi Hg) as (_ & _ & _ & G4).
    destruct (n_suffix _ _ _ _ _ _ _ _ I) as [pre0 X]. rewrite F1 in X. destruct (G4 pre0 pre r X Hp) as [f Hf].
    assert (In f fr). { rewrite <- Hr. unfold recorded. apply in_flat_map. exists (CFrame f). split; auto. left. auto. }
    destruct fr as [|f' fr']; [contradiction|]. exists f', fr'. split; auto.
    assert (Z : In f' fs). { rewrite (n_split _ _ _ _ _ _ _ _ I'). rewrite !in_app_iff. left. right. left. auto. }
    split; [apply IDS; auto|apply fs_data; auto].
  - intro Hb. destruct (HF Hb) as (Hl & Hbr & _). auto.
Qed.

Lemma tbx_loop_ok : forall fuel n file x s E0 E e m c p base cf eof, INV file s E e m c p base -> (E0 <= E <= E0 + n)%nat ->
  (eof = false -> CFok cf /\ breaks_ok (Some skip_limit) x file) -> (eof = true -> END e m c file) ->
  (length file + (E0 + n - E) + (if eof then 0 else 1) < fuel)%nat ->
  exists file' s' E' e' m' c' p' base' eof',
    tbx_loop M C dat place k skip ignore zero_at autofill fuel n file x s (accE E0 E) cf (E - E0) eof = Ok (file', s', accE E0 E', (E' - E0)%nat, eof') /\
    INV file' s' E' e' m' c' p' base' /\ (E <= E' <= E0 + n)%nat /\ (E' = E0 + n \/ (eof' = true /\ END e' m' c' file'))%nat /\ (length file' <= length file)%nat.
Proof.
  induction fuel as [|fuel IH]; intros n file x s E0 E e m c p base cf eof I HE HC HD HF; [lia|]. cbn [tbx_loop].
  destruct (eof || (E - E0 =? n)%nat) eqn:ST.
  - do 8 eexists. exists eof. split; [reflexivity|]. split; [exact I|]. split; [lia|]. split; [|lia].
    apply orb_true_iff in ST. destruct ST as [->|ST]; [right; auto|left]. apply Nat.eqb_eq in ST. lia.
  - apply orb_false_iff in ST. destruct ST as [-> ST]. apply Nat.eqb_neq in ST. destruct (HC eq_refl) as [HC1 HC2].
    unfold overfilled. destruct (Nat.ltb_spec (c_nseg C) (length (s_buf s))) as [OV|OV].
    + cbn [bind]. destruct (turn n file s E0 E e m c p base cf I) as (ct & s2 & s3 & out & e' & c' & base' & T1 & T2 & T3 & T4 & T5 & T6 & T7); auto; try lia.
      rewrite T1. rewrite T2. cbn [bind]. rewrite T3. cbn [bind]. rewrite T4. cbn [bind].
      replace (S (E - E0)) with (S E - E0)%nat by lia.
      destruct (IH n file x s3 E0 (S E) e' m c' p base' (Some out) false) as (f' & s' & E' & e2 & m2 & c2 & p2 & b2 & eo2 & L1 & L2 & L3 & L4 & L5); auto; try lia; try discriminate.
      exists f', s', E', e2, m2, c2, p2, b2, eo2. split; auto. split; auto. split; [lia|]. split; [auto|lia].
    + destruct (take_frames (Some skip_limit) k x file) as [[[r fr] b] y] eqn:R.
      destruct (read_more _ _ _ _ _ _ _ _ _ _ _ _ _ I OV HC2 R) as (s1 & p1 & m1 & A & I1 & Hend & Hcf & Hgo).
      rewrite A. cbn [bind orb].
      assert (HL' : (length r <= length file)%nat).
      { destruct b; [destruct (Hend eq_refl) as (_ & -> & _); cbn; lia|]. destruct (Hgo eq_refl). lia. }
      assert (HF' : (length r + (E0 + n - E) + (if b then 0 else 1) < fuel)%nat).
      { destruct b; [destruct (Hend eq_refl) as (_ & -> & _); cbn; lia|]. destruct (Hgo eq_refl). lia. }
      destruct (Nat.lt_ge_cases (length (s_buf s1)) (c_nseg C)) as [NF|FL].
      * destruct (get_none s1 NF) as [P _]. rewrite P.
        destruct (IH n r y s1 E0 E e m1 0%nat p1 base (Some (if b then [] else fr)) b) as (f' & s' & E' & e2 & m2 & c2 & p2 & b2 & eo2 & L1 & L2 & L3 & L4 & L5); auto.
        { intros ->. split; auto. apply Hgo. auto. }
        exists f', s', E', e2, m2, c2, p2, b2, eo2. split; auto. split; auto. split; auto. split; [auto|lia].
      * destruct (turn n r s1 E0 E e m1 0%nat p1 base (Some (if b then [] else fr)) I1) as (ct & s2 & s3 & out & e' & c' & base' & T1 & T2 & T3 & T4 & T5 & T6 & T7); auto; try lia.
        { destruct b; auto. }
        rewrite T1, T2. cbn [bind]. rewrite T3. cbn [bind]. rewrite T4. cbn [bind].
        replace (S (E - E0)) with (S E - E0)%nat by lia.
        destruct (IH n r y s3 E0 (S E) e' m1 c' p1 base' (Some out) b) as (f' & s' & E' & e2 & m2 & c2 & p2 & b2 & eo2 & L1 & L2 & L3 & L4 & L5); auto; try lia.
        { intros ->. split; auto. apply Hgo. auto. }
        exists f', s', E', e2, m2, c2, p2, b2, eo2. split; auto. split; auto. split; [lia|]. split; [auto|lia].
Qed.
Lemma END_ending : forall file s E e m c p base, INV file s E e m c p base -> END e m c file -> ending file E e m c.
Proof.
  intros file s E e m c p base I (-> & -> & -> & H). repeat split; auto.
  - intro He. eapply nogap; eauto.
  - intros i Hi HN. destruct (Nat.eq_dec (g (S i)) (S (g i))) as [X|X]; auto. destruct (GAPS i) as (_ & _ & Y & _); auto. lia.
Qed.

(** one read of [n] sets *)
Lemma tbx_read_ok : forall n l E e m c p base, INV (cf_left l) (cf_buf l) E e m c p base -> okTag (cf_tag l) E -> (1 <= n)%nat -> (E < total)%nat ->
  exists l' E' e' m' c' p' base',
    tbx_read_n M C dat place k skip ignore zero_at autofill n l = Ok (l', ((E' - E)%nat, Some (tm E), map (rowE E (E' - E)) (seq 0 k))) /\
    INV (cf_left l') (cf_buf l') E' e' m' c' p' base' /\ okTag (cf_tag l') E' /\ E' = Nat.min (E + n) total /\
    cf_pos l' = cf_pos l + Z.of_nat (length (cf_left l) - length (cf_left l')) /\ (length (cf_left l') <= length (cf_left l))%nat.
Proof.
  intros n l E e m c p base I HT Hn HE. unfold tbx_read_n. rewrite (start_ok _ _ HT).
  destruct (tbx_loop_ok (length (cf_left l) + n + 2) n (cf_left l) 0 (cf_buf l) E E e m c p base None false I) as (f1 & s1 & E1 & e1 & m1 & c1 & p1 & b1 & eo1 & L1 & L2 & L3 & L4 & L6); try lia; try discriminate.
  { intros _. split; [intros _; auto|]. apply breaks_start. intros lm X. injection X as <-.
    destruct (n_suffix _ _ _ _ _ _ _ _ I) as [pre Hp]. intros a b d Ex. apply (BREAKS (pre ++ a) b d). rewrite Hp, Ex, app_assoc. auto. }
  rewrite Nat.sub_diag in L1. rewrite L1. cbn [bind].
  destruct (finish_ok n (cf_pos l) (length (cf_left l)) f1 s1 E E1 e1 m1 c1 p1 b1 eo1) as (s' & E' & e' & m' & c' & p' & base' & R & I' & EE); auto; try lia.
  { destruct L4 as [L4|[L4 L5]]; [left; auto|right; split; auto; eapply END_ending; eauto]. }
  rewrite R. do 7 eexists. split; [reflexivity|]. cbn [cf_left cf_buf cf_tag cf_pos]. split; [exact I'|]. split; [left; auto|]. split; auto.
Qed.
Lemma tbx_calls_ok : forall ns l E e m c p base, INV (cf_left l) (cf_buf l) E e m c p base -> Forall (fun n => (1 <= n)%nat) ns -> okTag (cf_tag l) E ->
  io E ns (calls (fun n l => if nothing_left l then Raise EOFError else tbx_read_n M C dat place k skip ignore zero_at autofill n l) ns l).
Proof.
  induction ns as [|n ns IH]; intros l E e m c p base I HN HT; [constructor|]. apply Forall_cons_iff in HN; destruct HN as [N1 N2].
  cbn [calls]. destruct (Nat.lt_ge_cases E total) as [HE|HE].
  - rewrite (not_nothing _ _ _ _ _ _ _ I HE).
    destruct (tbx_read_ok n l E e m c p base I HT N1 HE) as (l' & E' & e' & m' & c' & p' & base' & R & I' & HT' & EE & _). rewrite R.
    replace E' with (E + (E' - E))%nat in I', HT' by lia.
    apply io_read; auto; try lia.
    + rewrite map_length, seq_length. auto.
    + intros i Hi. apply rows_nth. auto.
    + eapply IH; eauto.
  - rewrite (nothing _ _ _ _ _ _ _ I HE). apply io_end. auto.
Qed.
Lemma some_base : exists base : F, True.
Proof.
  assert (X : In (hd 0 TT) TT). { pose proof N_pos as NP. rewrite <- TT_len in NP. destruct TT; [cbn in NP; lia|left; auto]. }
  unfold TT in X at 2. rewrite <- (rc_order _ _ _ _ _ _ _ RC) in X. apply (proj1 (first_seen_In _ _)) in X. apply in_map_iff in X. destruct X as (f & _). eauto.
Qed.
Theorem tbx_in_order : forall pos ns, Forall (fun n => (1 <= n)%nat) ns ->
  io 0 ns (calls (fun n l => if nothing_left l then Raise EOFError else tbx_read_n M C dat place k skip ignore zero_at autofill n l) ns (open_cf C pos file0)).
Proof.
  intros pos ns H. destruct some_base as [base _].
  apply tbx_calls_ok with (e := 0%nat) (m := 0%nat) (c := 0%nat) (p := []) (base := base); auto.
  - apply INV_start.
  - right. auto.
Qed.

(** *** Durations *)
(** what is left of the file and the buffer are never less than the sets still to be returned when no frame is missing *)
Context (FULL : length fs = (N * k)%nat) (NGT : forall i, (i < N)%nat -> g i = i).
Lemma ngt_E : forall file s E e m c p base, INV file s E e m c p base -> c = 0%nat /\ E = e.
Proof.
  intros file s E e m c p base I.
  assert (c = 0%nat).
  { destruct (n_fill _ _ _ _ _ _ _ _ I) as [X|(X1 & X2 & _)]; auto. rewrite NGT in X2 by auto.
    pose proof (n_lo _ _ _ _ _ _ _ _ I) as LO. destruct e as [|e']; [lia|]. specialize (LO e'). rewrite NGT in LO by lia. lia. }
  subst c. split; auto. eapply (ng_E NGT); eauto.
Qed.
Lemma few_frames : forall file s E e m c p base, INV file s E e m c p base -> (length p <= m * k)%nat.
Proof.
  intros file s E e m c p base I. pose proof (n_em _ _ _ _ _ _ _ _ I) as EM.
  pose proof (proj2 IDS) as ND. fold fs in ND. rewrite (n_split _ _ _ _ _ _ _ _ I), map_app in ND. apply NoDup_app_l in ND.
  rewrite <- (map_length (fun f => (o_fom M f, o_mid M f)) p).
  replace (m * k)%nat with (length (list_prod (firstn m TT) (c_possible C))).
  2:{ rewrite prod_length, firstn_length, TT_len, <- KR, Nat.min_l by lia. auto. }
  apply NoDup_incl_length; auto. intros [t i] H. apply in_map_iff in H. destruct H as (f & X & Hf). injection X as <- <-.
  apply in_prod.
  - rewrite <- (n_first _ _ _ _ _ _ _ _ I). apply first_seen_In. apply in_map. auto.
  - apply IDS. fold fs. rewrite (n_split _ _ _ _ _ _ _ _ I). apply in_app_iff. auto.
Qed.
Lemma recorded_le : forall l : list (cslot F), (length (recorded l) <= length l)%nat.
Proof. induction l as [|[f| | |] l IH]; cbn; try lia; unfold recorded in IH; lia. Qed.
Lemma count_ok : forall nframe want l E e m c p base, INV (cf_left l) (cf_buf l) E e m c p base -> (E < total)%nat ->
  cf_pos l + Z.of_nat (length (cf_left l)) = nframe ->
  exists n, tbx_frame_count k nframe want l = Z.of_nat n /\ (1 <= n)%nat /\
    Nat.min n (total - E) = Nat.min (match want with None => total | Some w => Z.to_nat (Z.max w 1) end) (total - E).
Proof.
  intros nframe want l E e m c p base I HE HP. destruct (ngt_E _ _ _ _ _ _ _ _ I) as [-> HEe].
  pose proof (few_frames _ _ _ _ _ _ _ _ I) as FF. pose proof (INV_length _ _ _ _ _ _ _ _ I) as LN. pose proof (n_em _ _ _ _ _ _ _ _ I) as EM.
  assert (TN : total = N). { unfold total. rewrite last_grid, NGT by (pose proof N_pos; lia). pose proof N_pos. lia. }
  pose proof (recorded_le (cf_left l)) as RL. pose proof FULL as FL. rewrite (n_split _ _ _ _ _ _ _ _ I), app_length in FL.
  assert (Q : Z.of_nat (N - m) <= (nframe - cf_pos l) / Z.of_nat k).
  { apply Z.div_le_lower_bound; [lia|]. nia. }
  unfold tbx_frame_count. set (most := (nframe - cf_pos l) / Z.of_nat k + Z.of_nat (length (s_buf (cf_buf l)))).
  assert (MO : Z.of_nat (total - E) <= most) by (unfold most; lia). clearbody most.
  exists (Z.to_nat (Z.min (Z.max (match want with Some w => w | None => most end) 1) most)).
  destruct want as [w|]; split; try lia.
Qed.
Theorem tbx_durations : forall ws nframe l E e m c p base, INV (cf_left l) (cf_buf l) E e m c p base -> okTag (cf_tag l) E ->
  cf_pos l + Z.of_nat (length (cf_left l)) = nframe ->
  io E (map (fun w => match w with None => total | Some w => Z.to_nat (Z.max w 1) end) ws)
     (calls (fun w => tbx_read M C dat place k skip ignore zero_at autofill nframe w) ws l).
Proof.
  induction ws as [|w ws IH]; intros nframe l E e m c p base I HT HP; [constructor|].
  cbn [calls map]. unfold tbx_read. destruct (Nat.lt_ge_cases E total) as [HE|HE].
  - rewrite (not_nothing _ _ _ _ _ _ _ I HE).
    destruct (count_ok nframe w l E e m c p base I HE HP) as (n & Hn & N1 & HM). rewrite Hn. cbv zeta.
    destruct (Z.ltb_spec (Z.of_nat n) 0); [lia|]. rewrite Nat2Z.id.
    destruct (tbx_read_ok n l E e m c p base I HT N1 HE) as (l' & E' & e' & m' & c' & p' & base' & R & I' & HT' & EE & HP' & HL'). rewrite R.
    replace E' with (E + (E' - E))%nat in I', HT' by lia.
    apply io_read; auto; try lia.
    + rewrite map_length, seq_length. auto.
    + intros i Hi. apply rows_nth. auto.
    + eapply IH; eauto. lia.
  - rewrite (nothing _ _ _ _ _ _ _ I HE). apply io_end. auto.
Qed.
Theorem tbx_durations_in_order : forall pos ws,
  io 0 (map (fun w => match w with None => total | Some w => Z.to_nat (Z.max w 1) end) ws)
     (calls (fun w => tbx_read M C dat place k skip ignore zero_at autofill (pos + Z.of_nat (length file0)) w) ws (open_cf C pos file0)).
Proof.
  intros pos ws. destruct some_base as [base _].
  apply tbx_durations with (e := 0%nat) (m := 0%nat) (c := 0%nat) (p := []) (base := base); auto.
  - apply INV_start.
  - right. auto.
Qed.
End Tbx.


End Main.
