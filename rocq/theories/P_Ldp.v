(** Proofs about DRXFile.read. *)
From Coq Require Import List ZArith Bool Lia Permutation Sorted.
From Verif Require Import M_Ldp S_Ldp S_Buffer P_Buffer P_Buffer2 P_BufferModes.
Import ListNotations.
Open Scope Z_scope.

(** ** Lists *)
Lemma nodup_app : forall A (l l' : list A), NoDup (l ++ l') -> NoDup l /\ NoDup l' /\ forall x, In x l -> ~ In x l'.
Proof.
  induction l as [|x l IH]; cbn; intros l' H; [repeat split; auto; constructor|].
  inversion H as [|? ? N1 N2]; subst. destruct (IH _ N2) as (A1 & A2 & A3). rewrite in_app_iff in N1. split; [constructor; tauto|]. split; auto.
  intros y [->|Y]; [tauto|auto].
Qed.
Definition inb (x : Z) (l : list Z) : bool := existsb (Z.eqb x) l.
Lemma inb_t : forall x l, inb x l = true <-> In x l.
Proof.
  intros x l. unfold inb. rewrite existsb_exists. split.
  - intros (y & H & E). apply Z.eqb_eq in E. subst. auto.
  - intro H. exists x. split; auto. apply Z.eqb_refl.
Qed.
Lemma inb_f : forall x l, inb x l = false <-> ~ In x l.
Proof. intros x l. rewrite <- inb_t. destruct (inb x l); split; intro; congruence. Qed.
Lemma first_seen_In : forall l x, In x (first_seen l) <-> In x l.
Proof.
  induction l as [|y l IH]; intro x; [tauto|]. cbn [first_seen In]. rewrite filter_In, IH, negb_true_iff, Z.eqb_neq. split; [tauto|].
  destruct (Z.eq_dec x y) as [->|]; [tauto|]. intros [->|]; [tauto|auto].
Qed.
Lemma first_seen_NoDup : forall l, NoDup (first_seen l).
Proof.
  induction l as [|y l IH]; cbn; constructor.
  - rewrite filter_In, negb_true_iff, Z.eqb_neq. tauto.
  - apply NoDup_filter. auto.
Qed.
Lemma filter_filter : forall A (f g : A -> bool) l, filter f (filter g l) = filter (fun x => g x && f x) l.
Proof. induction l as [|x l IH]; cbn; auto. destruct (g x) eqn:G; cbn; rewrite IH; auto. Qed.
Lemma first_seen_app : forall p q, first_seen (p ++ q) = first_seen p ++ filter (fun y => negb (inb y p)) (first_seen q).
Proof.
  induction p as [|x p IH]; intro q; cbn.
  - symmetry. apply filter_all. auto.
  - f_equal. rewrite IH, filter_app, filter_filter. f_equal. apply filter_ext. intro y. rewrite negb_orb. apply andb_comm.
Qed.
Lemma first_seen_snoc : forall p x, first_seen (p ++ [x]) = if inb x p then first_seen p else first_seen p ++ [x].
Proof. intros. rewrite first_seen_app. cbn. destruct (inb x p); cbn; auto using app_nil_r. Qed.
Lemma first_seen_prefix : forall p q, exists r, first_seen (p ++ q) = first_seen p ++ r.
Proof. intros. rewrite first_seen_app. eauto. Qed.

Lemma min_key_is : forall l m, In m l -> (forall x, In x l -> m <= x) -> min_key l = Some m.
Proof.
  intros l m H1 H2. destruct (min_key l) as [y|] eqn:E.
  - apply min_key_some in E. destruct E as [A B]. f_equal. specialize (B m H1). specialize (H2 y A). lia.
  - apply min_key_none in E. subst. contradiction.
Qed.

Lemma recorded_app : forall a b, recorded (a ++ b) = recorded a ++ recorded b.
Proof. intros. apply flat_map_app. Qed.

(** ** Chunks *)
Lemma read_chunk_ok : forall n l r fs e, read_chunk n l = (r, fs, e) -> (forall a b, l = a ++ STail :: b -> b = []) ->
  exists pre, l = pre ++ r /\ recorded l = fs ++ recorded r /\ (length fs <= n)%nat /\
    (e = true -> r = [] /\ (length fs < n)%nat) /\
    (e = false -> length pre = n /\ recorded pre = fs) /\ ((0 < n)%nat -> l <> [] -> (length r < length l)%nat).
Proof.
  induction n as [|n IH]; cbn; intros l r fs e H T.
  - injection H as <- <- <-. exists []. repeat split; auto; try discriminate; try lia.
  - destruct l as [|[f| |] l].
    + injection H as <- <- <-. exists []. repeat split; auto; cbn; try lia; try discriminate. congruence.
    + destruct (read_chunk n l) as [[r' fs'] e'] eqn:R. injection H as <- <- <-.
      destruct (IH _ _ _ _ R) as (pre & A & B & C & D & E & G); [intros a b X; apply (T (SFrame f :: a) b); rewrite X; auto|].
      exists (SFrame f :: pre). split; [rewrite A; auto|]. split; [cbn; rewrite <- B; auto|]. split; [cbn; lia|]. split; [intro X; apply D in X; cbn; split; [tauto|lia]|].
      split; [intro X; apply E in X; destruct X; cbn; split; [lia|f_equal; auto]|].
      intros _ _. cbn. rewrite A, app_length. lia.
    + destruct (IH _ _ _ _ H) as (pre & A & B & C & D & E & G); [intros a b X; apply (T (SBad :: a) b); rewrite X; auto|].
      exists (SBad :: pre). split; [rewrite A; auto|]. split; [cbn; auto|]. split; [lia|]. split; [intro X; apply D in X; split; [tauto|lia]|].
      split; [intro X; apply E in X; destruct X; cbn; split; [lia|auto]|].
      intros _ _. cbn. rewrite A, app_length. lia.
    + assert (l = []) by (apply (T [] l); auto). subst l. injection H as <- <- <-. exists [STail]. cbn. repeat split; auto; try lia; try discriminate.
Qed.

(** ** Four-element lists *)
Lemma set_nth_map4 : forall A i (x : A) f, (i < 4)%nat ->
  set_nth i x (map f [0; 1; 2; 3]%nat) = map (fun a => if Nat.eqb a i then x else f a) [0; 1; 2; 3]%nat.
Proof. intros A i x f H. destruct i as [|[|[|[|i]]]]; try lia; reflexivity. Qed.
Lemma nth_map4 : forall A i (d : A) f, (i < 4)%nat -> nth i (map f [0; 1; 2; 3]%nat) d = f i.
Proof. intros A i d f H. destruct i as [|[|[|[|i]]]]; try lia; reflexivity. Qed.
Lemma map4_ext : forall A (f g : nat -> A), (forall a, (a < 4)%nat -> f a = g a) -> map f [0; 1; 2; 3]%nat = map g [0; 1; 2; 3]%nat.
Proof. intros A f g H. cbn. rewrite !H by lia. reflexivity. Qed.

(** stand depends on the identifier only *)
Definition sid (i : list Z) : option nat :=
  match i with
  | [_; t; p] => let a := 2 * (t - 1) + p in if (0 <=? a) && (a <? 4) then Some (Z.to_nat a) else None
  | _ => None
  end.
Lemma stand_sid : forall f, stand f = sid (drx_id_tuple (dx_id f)). Proof. reflexivity. Qed.
Lemma sid_lt : forall i a, sid i = Some a -> (a < 4)%nat.
Proof.
  intros i a. unfold sid. destruct i as [|? [|t [|p [|]]]]; try discriminate.
  destruct (Z.leb_spec 0 (2 * (t - 1) + p)), (Z.ltb_spec (2 * (t - 1) + p) 4); cbn [andb]; try discriminate. intro H1. assert (a = Z.to_nat (2 * (t - 1) + p)) by congruence. lia.
Qed.

Definition memn (a : nat) (l : list nat) : bool := existsb (Nat.eqb a) l.

Section Main.
Context (bit6 : Z) (C : cfg) (k : nat) (skip autofill : Z) (ignore : bool) (toff : Z).
Context (LW : lawful (drx_ops bit6) C).
Context (SID : forall i, In i (c_possible C) -> exists a, sid i = Some a).
Context (SINJ : forall i j a, In i (c_possible C) -> In j (c_possible C) -> sid i = Some a -> sid j = Some a -> i = j).
Context (file0 : list slot) (t0 : Z) (grid : list nat) (L : nat).
Context (RC : recording file0 t0 skip grid L).
Context (WIN : in_window (c_nseg C) file0).
Context (IDS : ids_once (c_possible C) file0).
Context (GAPS : gaps_fillable (c_possible C) (c_nseg C) k autofill grid file0).
Context (SEG : (2 <= c_nseg C)%nat) (K1 : (1 <= k)%nat).

Let M := drx_ops bit6.
Notation mid f := (drx_id_tuple (dx_id f)).
Notation fs := (recorded file0).
Notation tm j := (set_time t0 skip j).
Notation g i := (nth i grid 0%nat).
Notation N := (length grid).
Let TT := map (set_time t0 skip) grid.
Notation tags l := (map dx_tt l).
Let zeros := repeat (Fin 0) L.
Notation blk j a := (block file0 L (tm j) a).
Lemma SEG1 : (1 <= c_nseg C)%nat. Proof. lia. Qed.
Definition total : nat := S (last grid 0%nat).

(** *** The grid *)
Lemma skip_pos : 0 < skip. Proof. apply (rc_start _ _ _ _ _ RC). Qed.
Lemma t0_floor : drx_floor < t0. Proof. apply (rc_start _ _ _ _ _ RC). Qed.
Lemma st_S : forall j, tm (S j) = tm j + skip. Proof. intro j. unfold set_time. lia. Qed.
Lemma st_lt : forall i j, (i < j)%nat <-> tm i < tm j.
Proof. intros i j. unfold set_time. pose proof skip_pos. split; intro H1; nia. Qed.
Lemma st_inj : forall i j, tm i = tm j -> i = j.
Proof. intros i j H. pose proof (st_lt i j). pose proof (st_lt j i). lia. Qed.
Lemma st_floor : forall j, drx_floor < tm j.
Proof. intro j. unfold set_time. pose proof skip_pos. pose proof t0_floor. nia. Qed.
Lemma st_nz : forall j, tm j <> 0. Proof. intro j. pose proof (st_floor j). unfold drx_floor in *. lia. Qed.
Lemma g_lt : forall i j, (i < j)%nat -> (j < N)%nat -> (g i < g j)%nat.
Proof.
  intros i j H. induction H as [|j H IH]; intro HN.
  - apply (rc_grid _ _ _ _ _ RC). auto.
  - etransitivity; [apply IH; lia|]. apply (rc_grid _ _ _ _ _ RC). auto.
Qed.
Lemma N_pos : (0 < N)%nat.
Proof. pose proof (proj1 (rc_grid _ _ _ _ _ RC)) as H. destruct grid; cbn in *; [discriminate|lia]. Qed.
Lemma g_0 : g 0 = 0%nat.
Proof. pose proof (proj1 (rc_grid _ _ _ _ _ RC)) as H. destruct grid; cbn in *; [discriminate|auto]. Qed.
Lemma last_grid : last grid 0%nat = g (N - 1).
Proof.
  clear. induction grid as [|x [|y l] IH]; auto. change (last (x :: y :: l) 0%nat) with (last (y :: l) 0%nat). rewrite IH.
  replace (length (x :: y :: l) - 1)%nat with (S (length (y :: l) - 1)) by (cbn; lia). reflexivity.
Qed.
Lemma g_total : forall i, (i < N)%nat -> (g i < total)%nat.
Proof.
  intros i H. unfold total. rewrite last_grid. destruct (Nat.eq_dec i (N - 1)) as [->|]; [lia|].
  pose proof (g_lt i (N - 1)). lia.
Qed.
Lemma TT_len : length TT = N. Proof. apply map_length. Qed.
Lemma TT_nth : forall i, (i < N)%nat -> nth i TT 0 = tm (g i).
Proof. intros i H. unfold TT. rewrite nth_indep with (d' := tm 0%nat) by (rewrite map_length; auto). apply map_nth. Qed.
Lemma TT_skipn : forall e, (e < N)%nat -> skipn e TT = tm (g e) :: skipn (S e) TT.
Proof.
  intros e H. rewrite <- TT_nth by auto. assert (HL : (e < length TT)%nat) by (rewrite TT_len; auto). clear - HL.
  revert e HL. induction TT as [|x l IH]; cbn; intros e H; [lia|]. destruct e; auto. apply IH. lia.
Qed.
Lemma TT_In_skipn : forall e x, In x (skipn e TT) <-> exists i, (e <= i < N)%nat /\ x = tm (g i).
Proof.
  intros e x. split.
  - intro H. apply (In_nth _ _ 0) in H. destruct H as (j & H1 & H2). rewrite skipn_length, TT_len in H1. exists (e + j)%nat. split; [lia|].
    rewrite <- H2, <- TT_nth by lia.
    assert (X : forall (l : list Z) a b, nth b (skipn a l) 0 = nth (a + b) l 0).
    { clear. induction l as [|y l IH]; intros a b; [rewrite skipn_nil; destruct b, (a)%nat; auto|]. destruct a; auto. cbn. apply IH. }
    apply X.
  - intros (i & H & ->). assert (G : forall d e, (i = e + d)%nat -> (i < N)%nat -> In (tm (g i)) (skipn e TT)).
    { induction d as [|d IH]; intros e' E HN.
      - rewrite TT_skipn by lia. left. repeat f_equal. lia.
      - rewrite TT_skipn by lia. right. apply IH; lia. }
    apply (G (i - e)%nat); lia.
Qed.
Lemma TT_NoDup : NoDup TT.
Proof. unfold TT. rewrite <- (rc_order _ _ _ _ _ RC). apply first_seen_NoDup. Qed.

(** *** Frames *)
Lemma fs_grid : forall f, In f fs -> exists i, (i < N)%nat /\ dx_tt f = tm (g i).
Proof.
  intros f H. assert (I : In (dx_tt f) TT) by (unfold TT; rewrite <- (rc_order _ _ _ _ _ RC); apply first_seen_In, in_map; auto).
  apply (TT_In_skipn 0) in I. destruct I as (i & A & B). exists i. split; [lia|auto].
Qed.
Lemma fs_data : forall f, In f fs -> length (dx_data f) = L /\ map mul0 (dx_data f) = zeros.
Proof.
  intros f H. destruct (rc_data _ _ _ _ _ RC f H) as [A B]. split; [auto|]. unfold zeros. rewrite <- A. clear - B.
  induction (dx_data f) as [|x l IH]; auto. cbn. destruct (B x (or_introl eq_refl)) as [z ->]. cbn. f_equal. apply IH. intros y Y. apply B. right. auto.
Qed.
Lemma fs_mid_inj : forall f f', In f fs -> In f' fs -> dx_tt f = dx_tt f' -> mid f = mid f' -> f = f'.
Proof.
  destruct IDS as [_ ND]. revert ND. generalize fs. induction l as [|x l IH]; cbn; intros ND f f' H H' T Mi; [contradiction|].
  inversion ND as [|? ? N1 N2]; subst. destruct H as [->|H], H' as [->|H']; auto.
  - exfalso. apply N1. rewrite T, Mi. apply (in_map (fun f => (dx_tt f, mid f)) l f'); auto.
  - exfalso. apply N1. rewrite <- T, <- Mi. apply (in_map (fun f => (dx_tt f, mid f)) l f); auto.
Qed.
(** A frame of the file is its block. *)
Lemma block_real : forall f a, In f fs -> stand f = Some a -> dx_data f = block file0 L (dx_tt f) a.
Proof.
  intros f a H S. unfold block. destruct (find _ fs) as [f'|] eqn:E.
  - apply find_some in E. destruct E as [I E]. apply andb_true_iff in E. destruct E as [E1 E2]. apply Z.eqb_eq in E1.
    unfold is_stand in E2. destruct (stand f') as [a'|] eqn:S'; [|discriminate]. apply Nat.eqb_eq in E2. subst a'.
    f_equal. apply fs_mid_inj; auto. rewrite stand_sid in S, S'. apply (SINJ _ _ a); auto; apply IDS; auto.
  - eapply find_none in E; [|exact H]. cbn in E. rewrite Z.eqb_refl in E. unfold is_stand in E. rewrite S, Nat.eqb_refl in E. discriminate.
Qed.
Lemma block_none : forall t a, (forall f, In f fs -> dx_tt f = t -> stand f <> Some a) -> block file0 L t a = zeros.
Proof.
  intros t a H. unfold block. destruct (find _ fs) as [f'|] eqn:E; [|reflexivity].
  apply find_some in E. destruct E as [I E]. apply andb_true_iff in E. destruct E as [E1 E2]. apply Z.eqb_eq in E1.
  unfold is_stand in E2. destruct (stand f') as [a'|] eqn:S'; [|discriminate]. apply Nat.eqb_eq in E2. subst a'. exfalso. apply (H f'); auto.
Qed.

(** *** Sets *)
Definition good_set (j : nat) (out : list drx_frame) : Prop :=
  Permutation (map (fun f => mid f) out) (c_possible C) /\
  forall f, In f out -> dx_tt f = tm j /\ length (dx_data f) = L /\ forall a, stand f = Some a -> dx_data f = blk j a.

Definition at_tag (t : Z) (p : list drx_frame) : list drx_frame := filter (fun f => dx_tt f =? t) p.

(** get() of an entry with key k. *)
Lemma get_entry : forall s t l, lookup t (s_buf s) = Some l -> l <> [] ->
  NoDup (map (fun f => mid f) l) -> (forall f, In f l -> In (mid f) (c_possible C) /\ dx_tt f = t) ->
  (forall f, In f l -> map mul0 (dx_data f) = zeros) ->
  exists s' out, get_key M C s t = Ok (s', out) /\ s_buf s' = remove_key t (s_buf s) /\
    s_done s' = deque_append (c_nseg C) (s_done s) t /\
    Permutation (map (fun f => mid f) out) (c_possible C) /\
    forall f, In f out -> dx_tt f = t /\ (In f l \/ (dx_data f = zeros /\ ~ In (mid f) (map (fun f => mid f) l))).
Proof.
  intros s t l HL NE ND HI HZ.
  destruct (get_key_total M C s t) as (s' & out & G).
  { clear - HL. revert HL. induction (s_buf s) as [|[k' l'] b IH]; cbn; [discriminate|]. destruct (Z.eqb_spec t k'); auto. }
  destruct (get_key_cases M C _ _ _ _ G) as (l' & o & fu & pa & dr & mi & HL' & -> & -> & CS).
  rewrite HL in HL'. injection HL' as <-.
  exists (mkSt (remove_key t (s_buf s)) (deque_append (c_nseg C) (s_done s) t) fu pa dr mi), (maybe_sort M C o).
  split; [exact G|]. split; [reflexivity|]. split; [reflexivity|].
  assert (IC : incl (map (o_mid M) l) (c_possible C)).
  { intros i Hi. apply in_map_iff in Hi. destruct Hi as (f & <- & Hf). apply HI. auto. }
  pose proof (missing_spec M C l ND IC (lw_nodup _ _ LW)) as PM.
  pose proof (maybe_sort_perm M C o) as MS.
  assert (LEN : (length l <= c_nframes C)%nat) by (apply (good_length M C LW); split; auto).
  assert (HO : Permutation (map (fun f => mid f) o) (c_possible C) /\
    forall f, In f o -> dx_tt f = t /\ (In f l \/ (dx_data f = zeros /\ ~ In (mid f) (map (fun f => mid f) l)))).
  { destruct CS as [(E & -> & _)|[(E & -> & _)|(E & _)]]; [| |lia].
    - split.
      + pose proof (Permutation_length PM) as PL. rewrite app_length, map_length, E, (lw_count _ _ LW) in PL.
        assert (MN : missing_list M C l = []) by (apply length_zero_iff_nil; lia). rewrite MN, app_nil_r in PM. exact PM.
      + intros f Hf. split; [apply HI; auto|auto].
    - destruct l as [|b0 r]; [congruence|].
      assert (MM : map (fun f => mid f) (map (o_fill M b0) (missing_list M C (b0 :: r))) = missing_list M C (b0 :: r)).
      { rewrite map_map. rewrite <- (map_id (missing_list M C (b0 :: r))) at 2. apply map_ext_in. intros i Hi. apply (lw_mid _ _ LW b0).
        unfold missing_list in Hi. apply filter_In in Hi. tauto. }
      split; [rewrite map_app, MM; exact PM|].
      intros f Hf. apply in_app_iff in Hf. destruct Hf as [Hf|Hf]; [split; [apply HI; auto|auto]|].
      apply in_map_iff in Hf. destruct Hf as (i & <- & Hi). unfold missing_list in Hi. apply filter_In in Hi. destruct Hi as [Hi1 Hi2].
      apply negb_true_iff, id_in_false in Hi2.
      split; [change (dx_tt (o_fill M b0 i)) with (o_fom M (o_fill M b0 i)); rewrite (lw_fom _ _ LW); apply (HI b0); left; auto|].
      right. split.
      + transitivity (map mul0 (dx_data b0)); [|apply HZ; left; auto]. cbn. unfold drx_fill. destruct i as [|? [|? [|? [|]]]]; reflexivity.
      + change (mid (o_fill M b0 i)) with (o_mid M (o_fill M b0 i)). rewrite (lw_mid _ _ LW) by auto. exact Hi2. }
  destruct HO as [HO1 HO2]. split; [rewrite MS; exact HO1|]. intros f Hf. apply HO2. eapply Permutation_in; [exact MS|exact Hf].
Qed.
(** *** Writing a set to the array *)
Definition inSt (a : nat) : bool := existsb (fun i => match sid i with Some x => Nat.eqb x a | None => false end) (c_possible C).
Definition tagE (E a : nat) : Z := if inSt a then match E with O => 0 | S e => tm e end else 0.
Definition rowE (E0 n a : nat) : list (list num) := if inSt a then map (fun j => blk (E0 + j) a) (seq 0 n) else [].
Definition timeE (E0 n : nat) : option Z := match n with O => None | _ => Some (tm E0 - toff) end.
Definition accE (E0 E : nat) : placed :=
  mkPlaced (map (tagE E) [0; 1; 2; 3]%nat) (timeE E0 (E - E0)) (map (rowE E0 (E - E0)) [0; 1; 2; 3]%nat).
Definition partD (E0 E : nat) (D : list nat) : placed :=
  mkPlaced (map (fun a => if memn a D then tm E else tagE E a) [0; 1; 2; 3]%nat)
           (match D with [] => timeE E0 (E - E0) | _ => Some (tm E0 - toff) end)
           (map (fun a => rowE E0 (E - E0) a ++ (if memn a D then [blk E a] else [])) [0; 1; 2; 3]%nat).

Lemma inSt_t : forall i a, In i (c_possible C) -> sid i = Some a -> inSt a = true.
Proof. intros i a H S. unfold inSt. apply existsb_exists. exists i. rewrite S, Nat.eqb_refl. auto. Qed.
Lemma memn_t : forall a D, memn a D = true <-> In a D.
Proof.
  intros. unfold memn. rewrite existsb_exists. split.
  - intros (y & H & E). apply Nat.eqb_eq in E. subst. auto.
  - intro H. exists a. rewrite Nat.eqb_refl. auto.
Qed.
Lemma memn_f : forall a D, ~ In a D -> memn a D = false.
Proof. intros a D H. destruct (memn a D) eqn:E; auto. apply memn_t in E. contradiction. Qed.

Lemma place_step : forall n E0 E D f a, (E0 <= E)%nat -> (E - E0 < n)%nat -> dx_tt f = tm E -> stand f = Some a ->
  inSt a = true -> ~ In a D -> dx_data f = blk E a ->
  place skip ignore toff n (partD E0 E D) f = Ok (partD E0 E (a :: D)).
Proof.
  intros n E0 E D f a H0 Hn HT HS HI HD HB. unfold place. rewrite HS.
  assert (A4 : (a < 4)%nat) by (rewrite stand_sid in HS; apply sid_lt in HS; auto).
  unfold partD. cbn [p_tag p_time p_rows]. rewrite !nth_map4, !set_nth_map4 by auto. rewrite (memn_f _ _ HD), HT.
  assert (X : (tm E =? (if tagE E a =? 0 then tm E - skip else tagE E a) + skip) = true).
  { unfold tagE. rewrite HI. destruct E as [|E]; [cbn; apply Z.eqb_eq; lia|].
    destruct (Z.eqb_spec (tm E) 0) as [Z0|_]; [destruct (st_nz _ Z0)|]. apply Z.eqb_eq. apply st_S. }
  cbv zeta. rewrite X. cbn [negb andb].
  destruct (Nat.leb_spec n (length (rowE E0 (E - E0) a ++ []))) as [Y|_].
  { rewrite app_nil_r in Y. unfold rowE in Y. rewrite HI, map_length, seq_length in Y. lia. }
  f_equal. f_equal.
  - apply map4_ext. intros x Hx. cbn [memn existsb]. destruct (Nat.eqb x a); auto.
  - destruct D as [|d D]; auto. unfold timeE. destruct (E - E0)%nat eqn:EE; auto. replace E with E0 by lia. auto.
  - apply map4_ext. intros x Hx. cbn [memn existsb]. destruct (Nat.eqb_spec x a) as [->|]; cbn [orb]; auto.
    rewrite app_nil_r, HB. auto.
Qed.

Lemma place_all_step : forall n E0 E out D, (E0 <= E)%nat -> (E - E0 < n)%nat ->
  NoDup (map (fun f => mid f) out) -> (forall f, In f out -> In (mid f) (c_possible C)) ->
  (forall f, In f out -> dx_tt f = tm E /\ forall a, stand f = Some a -> dx_data f = blk E a /\ ~ In a D) ->
  exists D', place_all skip ignore toff n (partD E0 E D) out = Ok (partD E0 E D') /\
    (forall a, In a D' <-> In a D \/ exists f, In f out /\ stand f = Some a).
Proof.
  intros n E0 E out. induction out as [|f out IH]; intros D H0 Hn ND HI HF.
  - exists D. split; auto. intro a. split; auto. intros [H|(f & [] & _)]; auto.
  - cbn [place_all]. destruct (SID (mid f)) as [a Ha]; [apply HI; left; auto|]. rewrite <- stand_sid in Ha.
    destruct (HF f) as [HT HB]; [left; auto|]. destruct (HB a Ha) as [HB1 HB2].
    rewrite (place_step n E0 E D f a); auto.
    2: { apply (inSt_t (mid f)); auto. apply HI. left; auto. }
    cbn [bind]. inversion ND as [|? ? N1 N2]; subst.
    destruct (IH (a :: D)) as (D' & P1 & P2); auto.
    { intros f' Hf. apply HI. right. auto. }
    { intros f' Hf. destruct (HF f') as [X Y]; [right; auto|]. split; auto. intros a' Ha'. destruct (Y a' Ha') as [Y1 Y2]. split; auto.
      intros [->|Z]; auto. apply N1. replace (mid f) with (mid f'); [apply (in_map (fun f => mid f)); auto|].
      rewrite stand_sid in Ha, Ha'. apply (SINJ _ _ a'); auto; apply HI; [right|left]; auto. }
    exists D'. split; auto. intro x. rewrite P2. cbn [In]. split.
    + intros [[->|H]|(f' & H & H')]; auto; right; [exists f|exists f']; auto.
    + intros [H|(f' & [<-|H] & H')]; auto; [left; left; congruence|right; eauto].
Qed.

Lemma place_set : forall n E0 E out, (E0 <= E)%nat -> (E - E0 < n)%nat -> out <> [] -> good_set E out ->
  place_all skip ignore toff n (accE E0 E) out = Ok (accE E0 (S E)).
Proof.
  intros n E0 E out H0 Hn NE [HP HF].
  assert (HM : forall f, In f out -> In (mid f) (c_possible C)).
  { intros f Hf. eapply Permutation_in; [exact HP|]. apply (in_map (fun f => mid f)); auto. }
  assert (PE : accE E0 E = partD E0 E []).
  { unfold accE, partD. f_equal. apply map4_ext. intros a _. cbn. rewrite app_nil_r. auto. }
  rewrite PE. destruct (place_all_step n E0 E out []) as (D' & P1 & P2); auto.
  { apply (Permutation_NoDup (Permutation_sym HP)). apply (lw_nodup _ _ LW). }
  { intros f Hf. destruct (HF f Hf) as (A & _ & B). split; auto. }
  rewrite P1. f_equal.
  assert (MD : forall a, memn a D' = inSt a).
  { intro a. destruct (inSt a) eqn:I.
    - apply memn_t, P2. right. unfold inSt in I. apply existsb_exists in I. destruct I as (i & Hi & Si).
      destruct (sid i) as [x|] eqn:S; [|discriminate]. apply Nat.eqb_eq in Si. subst x.
      apply (Permutation_in i (Permutation_sym HP)) in Hi. apply in_map_iff in Hi. destruct Hi as (f & <- & Hf). exists f. rewrite stand_sid. auto.
    - apply memn_f. intro H. apply P2 in H. destruct H as [[]|(f & Hf & Sf)]. rewrite stand_sid in Sf. rewrite (inSt_t (mid f) a) in I; auto. discriminate. }
  assert (DN : D' <> []).
  { destruct out as [|f out]; [congruence|]. destruct (SID (mid f)) as [a Ha]; [apply HM; left; auto|].
    intro Z. assert (In a D') by (apply P2; right; exists f; rewrite stand_sid; split; [left|]; auto). rewrite Z in *. contradiction. }
  unfold partD, accE. f_equal.
  - apply map4_ext. intros a _. rewrite MD. unfold tagE. destruct (inSt a); auto.
  - destruct D'; [congruence|]. replace (S E - E0)%nat with (S (E - E0)) by lia. auto.
  - apply map4_ext. intros a _. rewrite MD. unfold rowE. destruct (inSt a); auto.
    replace (S E - E0)%nat with (S (E - E0)) by lia. rewrite seq_S, map_app. cbn [map plus]. repeat f_equal. lia.
Qed.

(** *** Appending frames of the file *)
Definition live (e m : nat) : list Z := skipn e (firstn m TT).
Definition real (p : list drx_frame) (t : Z) : Z * list drx_frame := (t, at_tag t p).

Lemma firstn_S_TT : forall m, (m < N)%nat -> firstn (S m) TT = firstn m TT ++ [tm (g m)].
Proof.
  intros m H. rewrite <- TT_nth by auto. assert (HL : (m < length TT)%nat) by (rewrite TT_len; auto). clear - HL.
  revert m HL. induction TT as [|x l IH]; cbn [length]; intros m H; [lia|]. destruct m; auto. cbn [firstn nth app]. f_equal. apply IH. lia.
Qed.
Lemma live_S : forall e m, (e <= m < N)%nat -> live e (S m) = live e m ++ [tm (g m)].
Proof.
  intros e m H. unfold live. rewrite firstn_S_TT by lia. rewrite skipn_app. f_equal.
  rewrite firstn_length, TT_len. replace (e - Nat.min m N)%nat with 0%nat by lia. auto.
Qed.
Lemma live_cons : forall e m, (e < m <= N)%nat -> live e m = tm (g e) :: live (S e) m.
Proof.
  intros e m H. unfold live. rewrite !skipn_firstn_comm. rewrite TT_skipn by lia.
  replace (m - e)%nat with (S (m - S e)) by lia. auto.
Qed.
Lemma live_nil : forall e, live e e = [].
Proof. intro e. unfold live. rewrite skipn_firstn_comm, Nat.sub_diag. auto. Qed.
Lemma live_length : forall e m, (e <= m <= N)%nat -> length (live e m) = (m - e)%nat.
Proof. intros e m H. unfold live. rewrite skipn_length, firstn_length, TT_len. lia. Qed.
Lemma live_In : forall e m x, (m <= N)%nat -> In x (live e m) <-> exists i, (e <= i < m)%nat /\ x = tm (g i).
Proof.
  intros e m x Hm. split.
  - intro H. assert (H' : In x (skipn e TT)).
    { rewrite <- (firstn_skipn m TT), skipn_app, in_app_iff. left. auto. }
    apply TT_In_skipn in H'. destruct H' as (i & Hi & ->). exists i. split; auto.
    assert (HF : In (tm (g i)) (firstn m TT)).
    { rewrite <- (firstn_skipn e (firstn m TT)), in_app_iff. auto. }
    destruct (Nat.lt_ge_cases i m); [lia|]. exfalso.
    pose proof TT_NoDup as ND. rewrite <- (firstn_skipn m TT) in ND.
    apply nodup_app in ND. exact (proj2 (proj2 ND) _ HF (proj2 (TT_In_skipn m _) (ex_intro _ i (conj (conj H0 (proj2 Hi)) eq_refl)))).
  - intros (i & [H1 H2] & ->). revert e H1. induction m as [|m IH]; [lia|]. intros e H1.
    rewrite live_S by lia. apply in_app_iff. destruct (Nat.eq_dec i m) as [->|]; [right; left; auto|]. left. apply IH; lia.
Qed.
Lemma live_NoDup : forall e m, NoDup (live e m).
Proof.
  intros e m. unfold live. pose proof TT_NoDup as ND. rewrite <- (firstn_skipn m TT) in ND. apply nodup_app, proj1 in ND.
  rewrite <- (firstn_skipn e (firstn m TT)) in ND. apply nodup_app in ND. tauto.
Qed.

Lemma at_tag_snoc : forall t p f, at_tag t (p ++ [f]) = if dx_tt f =? t then at_tag t p ++ [f] else at_tag t p.
Proof. intros. unfold at_tag. rewrite filter_app. cbn. destruct (dx_tt f =? t); auto using app_nil_r. Qed.
Lemma at_tag_none : forall t p, ~ In t (tags p) -> at_tag t p = [].
Proof. intros t p H. apply filter_none. intros f Hf. apply Z.eqb_neq. intro E. apply H. rewrite <- E. apply in_map. auto. Qed.
Lemma add_real : forall p f ts, NoDup ts -> In (dx_tt f) ts ->
  add_frame (dx_tt f) f (map (real p) ts) = map (real (p ++ [f])) ts.
Proof.
  intros p f ts. induction ts as [|t ts IH]; intros ND HI; [contradiction|]. inversion ND as [|? ? N1 N2]; subst.
  cbn [map]. change (real p t) with (t, at_tag t p). change (real (p ++ [f]) t) with (t, at_tag t (p ++ [f])).
  cbn [add_frame]. rewrite at_tag_snoc. destruct (Z.eqb_spec (dx_tt f) t) as [E|E].
  - f_equal. apply map_ext_in. intros x Hx. unfold real. rewrite at_tag_snoc. destruct (Z.eqb_spec (dx_tt f) x); auto. exfalso. apply N1. congruence.
  - f_equal. apply IH; auto. destruct HI; [congruence|auto].
Qed.
Lemma keys_real : forall p ts, keys (map (real p) ts) = ts.
Proof. intros. unfold keys. rewrite map_map. apply map_id. Qed.

Record BUF (s : st drx_frame) (p : list drx_frame) (e m : nat) : Prop := {
  b_buf : s_buf s = map (real p) (live e m);
  b_first : first_seen (tags p) = firstn m TT;
  b_em : (e <= m <= N)%nat;
  b_done : exists d, deque_last (s_done s) = Some d /\ forall x, In x (skipn e TT) -> d < x
}.

Lemma prefix_m : forall p q, fs = p ++ q -> first_seen (tags p) = firstn (length (first_seen (tags p))) TT /\ (length (first_seen (tags p)) <= N)%nat.
Proof.
  intros p q H. pose proof (rc_order _ _ _ _ _ RC) as O. fold TT in O. rewrite H, map_app in O. destruct (first_seen_prefix (tags p) (tags q)) as [r R].
  rewrite R in O. rewrite <- O. split.
  - rewrite firstn_app, Nat.sub_diag, firstn_all, firstn_O, app_nil_r. auto.
  - rewrite <- TT_len, <- O, app_length. lia.
Qed.

Lemma append_real1 : forall s p e m f q, BUF s p e m -> fs = (p ++ [f]) ++ q -> In (dx_tt f) (skipn e TT) ->
  exists s' m', append_one M s f = Ok s' /\ BUF s' (p ++ [f]) e m' /\ s_done s' = s_done s /\ (m <= m' <= S m)%nat.
Proof.
  intros s p e m f q B Hfs HI. destruct (b_done _ _ _ _ B) as (d & Hd & Hlt).
  pose proof (append_one_new M C SEG1 s f d Hd (Hlt _ HI)) as A. change (o_fom M f) with (dx_tt f) in A.
  destruct (b_em _ _ _ _ B) as [Hem HmN]. pose proof (b_first _ _ _ _ B) as BF.
  destruct (prefix_m _ _ Hfs) as [P1 P2]. rewrite map_app in P1, P2. cbn [map] in P1, P2. rewrite first_seen_snoc in P1, P2.
  destruct (inb (dx_tt f) (tags p)) eqn:IB.
  - eexists _, m. split; [exact A|]. split; [|split; [reflexivity|lia]].
    apply inb_t, first_seen_In in IB. rewrite BF in IB.
    assert (IL : In (dx_tt f) (live e m)).
    { apply TT_In_skipn in HI. destruct HI as (i & Hi & Ei).
      assert (IB' : In (dx_tt f) (live 0 m)) by exact IB. apply live_In in IB'; auto. destruct IB' as (j & Hj & Ej).
      apply live_In; auto. exists j. split; auto. split; [|lia].
      rewrite Ei in Ej. apply st_inj in Ej. destruct (Nat.lt_trichotomy i j) as [X|[X|X]]; try lia.
      - pose proof (g_lt j i X). lia. }
    split; cbn [s_buf s_done]; auto.
    + rewrite (b_buf _ _ _ _ B). apply add_real; auto. apply live_NoDup.
    + rewrite map_app. cbn. rewrite first_seen_snoc. rewrite <- BF in IB. apply (proj1 (first_seen_In _ _)), inb_t in IB. rewrite IB. auto.
    + eauto.
  - rewrite BF in P1, P2. rewrite app_length, firstn_length, TT_len in P1, P2. cbn [length] in P1, P2.
    replace (Nat.min m N + 1)%nat with (S m) in P1, P2 by lia. rewrite firstn_S_TT in P1 by lia.
    apply app_inv_head in P1. injection P1 as P1.
    eexists _, (S m). split; [exact A|]. split; [|split; [reflexivity|lia]].
    apply inb_f in IB.
    split; cbn [s_buf s_done]; auto; try lia.
    + rewrite (b_buf _ _ _ _ B). rewrite live_S by lia. rewrite add_frame_new.
      * rewrite map_app. f_equal.
        -- apply map_ext_in. intros t Ht. unfold real. rewrite at_tag_snoc. destruct (Z.eqb_spec (dx_tt f) t); auto. subst t. exfalso. apply IB.
           apply first_seen_In. rewrite BF. apply live_In in Ht; auto. destruct Ht as (i & Hi & Ei). change (firstn m TT) with (live 0 m). apply live_In; auto. exists i. split; [lia|auto].
        -- cbn. unfold real. rewrite P1, at_tag_snoc, Z.eqb_sym, P1, Z.eqb_refl. rewrite at_tag_none; auto. rewrite <- P1. auto.
      * rewrite keys_real. intro Ht. apply IB. apply first_seen_In. rewrite BF. apply live_In in Ht; auto. destruct Ht as (i & Hi & Ei).
        change (firstn m TT) with (live 0 m). apply live_In; auto. exists i. split; [lia|auto].
    + rewrite map_app. cbn [map]. rewrite first_seen_snoc. apply inb_f in IB. rewrite IB, BF, firstn_S_TT by lia. rewrite P1. auto.
    + eauto.
Qed.
Lemma append_real : forall fr s p e m q, BUF s p e m -> fs = p ++ fr ++ q -> (forall f, In f fr -> In (dx_tt f) (skipn e TT)) ->
  exists s' m', append M s fr = Ok s' /\ BUF s' (p ++ fr) e m' /\ s_done s' = s_done s /\ (m <= m' <= m + length fr)%nat.
Proof.
  induction fr as [|f fr IH]; intros s p e m q B Hfs HI.
  - exists s, m. rewrite app_nil_r. split; auto. split; auto. split; auto. cbn. lia.
  - destruct (append_real1 s p e m f (fr ++ q)) as (s1 & m1 & A1 & B1 & D1 & M1); auto.
    { rewrite Hfs, <- app_assoc. auto. } { apply HI. left. auto. }
    destruct (IH s1 (p ++ [f]) e m1 q) as (s2 & m2 & A2 & B2 & D2 & M2); auto.
    { rewrite Hfs, <- app_assoc. auto. } { intros. apply HI. right. auto. }
    exists s2, m2. cbn [append]. rewrite A1. split; auto. rewrite <- app_assoc in B2. split; auto. split; [congruence|]. cbn. lia.
Qed.

(** *** The state between two sets *)
Definition fill_frame (base : drx_frame) (j : nat) : drx_frame := mkDrx (dx_id base) (tm j) zeros (dx_valid base).
Definition fills (base : drx_frame) (E c : nat) : list (Z * list drx_frame) := map (fun j => (tm j, [fill_frame base j])) (seq E c).
Definition usable (f : drx_frame) : Prop := In (mid f) (c_possible C) /\ length (dx_data f) = L.

Record INV (file : list slot) (s : st drx_frame) (E e m c : nat) (p : list drx_frame) (base : drx_frame) : Prop := {
  n_split : fs = p ++ recorded file;
  n_suffix : exists pre, file0 = pre ++ file;
  n_buf : s_buf s = map (real p) (live e m) ++ fills base E c;
  n_first : first_seen (tags p) = firstn m TT;
  n_em : (e <= m <= N)%nat;
  n_done : deque_last (s_done s) = Some (match E with O => drx_floor | S x => tm x end);
  n_rest : forall f, In f (recorded file) -> In (dx_tt f) (skipn e TT);
  n_lo : forall i, (i < e)%nat -> (g i < E)%nat;
  n_hi : (e < N)%nat -> (E <= g e)%nat;
  n_endE : e = N -> E = total;
  n_fill : c = 0%nat \/ ((e < N)%nat /\ (E + c = g e)%nat /\ (c_nseg C <= m - e)%nat /\ usable base);
  n_end : e = N -> file = []
}.

Lemma INV_m_end : forall file s E e m c p base, INV file s E e m c p base -> recorded file = [] -> m = N.
Proof.
  intros file s E e m c p base I H. pose proof (n_split _ _ _ _ _ _ _ _ I) as S1. rewrite H, app_nil_r in S1.
  pose proof (n_first _ _ _ _ _ _ _ _ I) as S2. rewrite <- S1, (rc_order _ _ _ _ _ RC) in S2. fold TT in S2.
  apply (f_equal (@length Z)) in S2. rewrite firstn_length, TT_len in S2. pose proof (n_em _ _ _ _ _ _ _ _ I). lia.
Qed.
Lemma INV_tail : forall file s E e m c p base, INV file s E e m c p base -> forall a b, file = a ++ STail :: b -> b = [].
Proof.
  intros file s E e m c p base I a b ->. destruct (n_suffix _ _ _ _ _ _ _ _ I) as [pre Hp].
  apply (rc_tail _ _ _ _ _ RC (pre ++ a)). rewrite Hp, app_assoc. auto.
Qed.
Lemma n_done_lt : forall E e, (forall i, (i < e)%nat -> (g i < E)%nat) -> ((e < N)%nat -> (E <= g e)%nat) ->
  forall x, In x (skipn e TT) -> match E with O => drx_floor | S y => tm y end < x.
Proof.
  intros E e LO HI x H. apply TT_In_skipn in H. destruct H as (i & Hi & ->). destruct E as [|y]; [apply st_floor|].
  apply st_lt. assert (g e <= g i)%nat. { destruct (Nat.eq_dec e i) as [->|]; auto. pose proof (g_lt e i). lia. }
  assert (S y <= g e)%nat by (apply HI; lia). lia.
Qed.
Lemma keys_fills : forall base E c, keys (fills base E c) = map (set_time t0 skip) (seq E c).
Proof. intros. unfold keys, fills. rewrite map_map. auto. Qed.
Lemma g_le : forall i j, (i <= j)%nat -> (j < N)%nat -> (g i <= g j)%nat.
Proof. intros i j H1 H2. destruct (Nat.eq_dec i j) as [->|]; auto. pose proof (g_lt i j). lia. Qed.

Lemma lookup_app : forall F k (a b : list (Z * list F)), lookup k (a ++ b) = match lookup k a with Some l => Some l | None => lookup k b end.
Proof. induction a as [|[k' l] a IH]; cbn; intro b; auto. destruct (k0 =? k'); auto. Qed.
Lemma remove_app : forall F k (a b : list (Z * list F)), ~ In k (keys a) -> remove_key k (a ++ b) = a ++ remove_key k b.
Proof.
  induction a as [|[k' l] a IH]; cbn; intros b H; auto. destruct (Z.eqb_spec k0 k'); [subst; tauto|]. f_equal. apply IH. tauto.
Qed.

(** the first key is the next time *)
Lemma INV_min : forall file s E e m c p base, INV file s E e m c p base -> (c <> 0 \/ (e < m /\ E = g e))%nat ->
  min_key (keys (s_buf s)) = Some (tm E).
Proof.
  intros file s E e m c p base I H. pose proof (n_em _ _ _ _ _ _ _ _ I) as EM. pose proof (n_hi _ _ _ _ _ _ _ _ I) as HI.
  rewrite (n_buf _ _ _ _ _ _ _ _ I). unfold keys. rewrite map_app. change (map fst) with (@keys drx_frame). rewrite keys_real, keys_fills.
  apply min_key_is.
  - apply in_app_iff. destruct H as [H|[H ->]].
    + right. apply in_map. apply in_seq. lia.
    + left. apply live_In; [lia|]. exists e. split; [lia|auto].
  - intros x Hx. apply in_app_iff in Hx. destruct Hx as [Hx|Hx].
    + apply live_In in Hx; [|lia]. destruct Hx as (i & Hi & ->). pose proof (g_le e i). assert (E <= g i)%nat by lia.
      pose proof (st_lt (g i) E). lia.
    + apply in_map_iff in Hx. destruct Hx as (j & <- & Hj). apply in_seq in Hj. pose proof (st_lt j E). lia.
Qed.

Lemma zeros_mul0 : map mul0 zeros = zeros.
Proof. unfold zeros. clear. induction L as [|l IH]; cbn; [auto|]. f_equal. exact IH. Qed.

(** a set of fill frames *)
Lemma emit_fill : forall file s E e m c p base, INV file s E e m (S c) p base ->
  exists s' out, get_key M C s (tm E) = Ok (s', out) /\ good_set E out /\ INV file s' (S E) e m c p base.
Proof.
  intros file s E e m c p base I. pose proof (n_em _ _ _ _ _ _ _ _ I) as EM. pose proof (n_lo _ _ _ _ _ _ _ _ I) as LO.
  destruct (n_fill _ _ _ _ _ _ _ _ I) as [X|(He & Hc & Hs & Hb)]; [discriminate|].
  assert (NK : ~ In (tm E) (keys (map (real p) (live e m)))).
  { rewrite keys_real. intro X. apply live_In in X; [|lia]. destruct X as (i & Hi & X). apply st_inj in X. pose proof (g_le e i). lia. }
  assert (LK : lookup (tm E) (s_buf s) = Some [fill_frame base E]).
  { rewrite (n_buf _ _ _ _ _ _ _ _ I), lookup_app, lookup_none by auto. cbn. rewrite Z.eqb_refl. auto. }
  destruct (get_entry s (tm E) [fill_frame base E]) as (s' & out & G & GB & GD & GP & GF); auto; try discriminate.
  { cbn. constructor; auto. constructor. }
  { intros f [<-|[]]. split; auto. apply Hb. }
  { intros f [<-|[]]. cbn. apply zeros_mul0. }
  exists s', out. split; auto.
  assert (BZ : forall a, blk E a = zeros).
  { intro a. apply block_none. intros f Hf HT. exfalso. destruct (fs_grid f Hf) as (i & Hi & X). rewrite HT in X. apply st_inj in X.
    destruct (Nat.lt_ge_cases i e) as [Y|Y]; [specialize (LO i Y); lia|]. pose proof (g_le e i Y Hi). lia. }
  split.
  - split; auto. intros f Hf. destruct (GF f Hf) as [A [[<-|[]]|[B _]]].
    + split; auto. split; [apply repeat_length|]. intros a _. rewrite BZ. auto.
    + split; auto. rewrite B. split; [apply repeat_length|]. intros a _. rewrite BZ. auto.
  - split; try apply I; auto; try lia.
    + rewrite GB, (n_buf _ _ _ _ _ _ _ _ I), remove_app by auto. f_equal. cbn. rewrite Z.eqb_refl. auto.
    + rewrite GD. apply deque_last_append. exact SEG1.
    + intros i Hi. specialize (LO i Hi). lia.
    + destruct c; [left; auto|right]. repeat split; auto; try apply Hb. lia.
Qed.

(** a set of the file *)
Lemma emit_real : forall file s E e m p base, INV file s E e m 0 p base -> (e < m)%nat -> E = g e ->
  (forall f, In f (recorded file) -> In (dx_tt f) (skipn (S e) TT)) -> (S e = N -> file = []) ->
  exists s' out, get_key M C s (tm E) = Ok (s', out) /\ good_set E out /\ INV file s' (S E) (S e) m 0 p base.
Proof.
  intros file s E e m p base I He HE HR HN. pose proof (n_em _ _ _ _ _ _ _ _ I) as EM. pose proof (n_lo _ _ _ _ _ _ _ _ I) as LO.
  pose proof (n_split _ _ _ _ _ _ _ _ I) as SP. destruct IDS as [ID1 ID2].
  assert (LK : lookup (tm E) (s_buf s) = Some (at_tag (tm E) p)).
  { rewrite (n_buf _ _ _ _ _ _ _ _ I), live_cons by lia. cbn. rewrite HE, Z.eqb_refl. auto. }
  assert (PF : forall f, In f p -> In f fs) by (intros f Hf; rewrite SP; apply in_app_iff; auto).
  destruct (get_entry s (tm E) (at_tag (tm E) p)) as (s' & out & G & GB & GD & GP & GF); auto.
  { assert (X : In (tm E) (tags p)).
    { apply first_seen_In. rewrite (n_first _ _ _ _ _ _ _ _ I). change (firstn m TT) with (live 0 m). apply live_In; [lia|]. exists e. split; [lia|congruence]. }
    apply in_map_iff in X. destruct X as (f & X1 & X2). intro X. assert (Y : In f (at_tag (tm E) p)) by (apply filter_In; split; auto; apply Z.eqb_eq; auto).
    rewrite X in Y. contradiction. }
  { rewrite SP, map_app in ID2. apply nodup_app, proj1 in ID2. clear - ID2. induction p as [|f p IH]; cbn; [constructor|].
    inversion ID2 as [|? ? N1 N2]; subst. destruct (Z.eqb_spec (dx_tt f) (tm E)) as [X|]; auto. cbn. constructor; auto.
    intro Y. apply N1. apply in_map_iff in Y. destruct Y as (f' & Y1 & Y2). apply filter_In in Y2. destruct Y2 as [Y2 Y3]. apply Z.eqb_eq in Y3.
    apply in_map_iff. exists f'. split; auto. congruence. }
  { intros f Hf. apply filter_In in Hf. destruct Hf as [Hf1 Hf2]. apply Z.eqb_eq in Hf2. split; auto. }
  { intros f Hf. apply filter_In in Hf. apply fs_data. apply PF. tauto. }
  exists s', out. split; auto. split.
  - split; auto. intros f Hf. destruct (GF f Hf) as [A [B|[B1 B2]]].
    + split; auto. apply filter_In, proj1, PF in B. split; [apply fs_data; auto|]. intros a Ha. rewrite <- A. apply block_real; auto.
    + split; auto. rewrite B1. split; [apply repeat_length|]. intros a Ha. symmetry. apply block_none. intros f' Hf' T' S'. apply B2.
      assert (Y : mid f' = mid f).
      { rewrite stand_sid in Ha, S'. apply (SINJ _ _ a); auto. eapply Permutation_in; [exact GP|]. apply (in_map (fun f => mid f)). auto. }
      rewrite <- Y. apply (in_map (fun f => mid f)). apply filter_In. split; [|apply Z.eqb_eq; auto].
      rewrite SP in Hf'. apply in_app_iff in Hf'. destruct Hf' as [Hf'|Hf']; auto. exfalso.
      apply HR, TT_In_skipn in Hf'. destruct Hf' as (i & Hi & X). rewrite T', HE in X. apply st_inj in X. pose proof (g_lt e i). lia.
  - split; try apply I; auto; try lia.
    + rewrite GB, (n_buf _ _ _ _ _ _ _ _ I), live_cons by lia. cbn. rewrite HE, Z.eqb_refl. auto.
    + rewrite GD. apply deque_last_append. exact SEG1.
    + intros i Hi. destruct (Nat.eq_dec i e) as [->|]; [lia|]. assert (g i < E)%nat by (apply LO; lia). lia.
    + intro H. pose proof (g_lt e (S e)). lia.
    + intro H. rewrite HE. unfold total. rewrite last_grid. repeat f_equal. lia.
Qed.

(** No frame of a set that has left a full buffer comes later. *)
Lemma window_rest : forall file s E e m c p base, INV file s E e m c p base -> (c_nseg C <= m - e)%nat ->
  forall f, In f (recorded file) -> In (dx_tt f) (skipn (S e) TT).
Proof.
  intros file s E e m c p base I H f Hf. pose proof (n_em _ _ _ _ _ _ _ _ I) as EM.
  pose proof (n_rest _ _ _ _ _ _ _ _ I f Hf) as R. rewrite TT_skipn in R by lia. destruct R as [R|R]; auto. exfalso.
  apply in_split in Hf. destruct Hf as (q1 & q2 & Hq). pose proof (n_split _ _ _ _ _ _ _ _ I) as SP. rewrite Hq, app_assoc in SP.
  pose proof (WIN _ _ _ SP) as W. destruct (first_seen_prefix (tags p) (tags q1)) as [r X]. rewrite map_app, X, filter_app, app_length in W.
  rewrite (n_first _ _ _ _ _ _ _ _ I) in W.
  rewrite <- (firstn_skipn e (firstn m TT)), filter_app, app_length in W. fold (live e m) in W.
  rewrite (filter_all _ _ (live e m)) in W; [rewrite live_length in W by lia; lia|].
  intros x Hx. apply live_In in Hx; [|lia]. destruct Hx as (i & Hi & ->). apply Z.leb_le. rewrite <- R.
  pose proof (st_lt (g i) (g e)). pose proof (g_le e i). lia.
Qed.

(** *** Filling gaps *)
Lemma zero_frames_fill : forall base n x i, length (dx_data base) = L ->
  zero_frames skip base (tm x) (Z.of_nat (S i)) n = map (fill_frame base) (seq (x + S i) n).
Proof.
  intros base n. induction n as [|n IH]; intros x i HL; auto. cbn [zero_frames seq map]. f_equal.
  - unfold fill_frame. f_equal; [unfold set_time; lia|]. unfold zeros. rewrite <- HL. clear. induction (dx_data base); cbn; f_equal; auto.
  - replace (Z.of_nat (S i) + 1) with (Z.of_nat (S (S i))) by lia. rewrite IH by auto. repeat f_equal. lia.
Qed.
Lemma append_fills : forall base n a s d, deque_last (s_done s) = Some d -> d < tm a ->
  (forall j, (a <= j < a + n)%nat -> ~ In (tm j) (keys (s_buf s))) ->
  exists s', append M s (map (fill_frame base) (seq a n)) = Ok s' /\ s_buf s' = s_buf s ++ fills base a n /\ s_done s' = s_done s.
Proof.
  intros base n. induction n as [|n IH]; intros a s d Hd Hlt NK.
  - exists s. cbn. rewrite app_nil_r. auto.
  - cbn [seq map append]. rewrite (append_one_new M C SEG1 s (fill_frame base a) d Hd Hlt).
    change (o_fom M (fill_frame base a)) with (tm a). rewrite add_frame_new by (apply NK; lia).
    match goal with |- context [append M ?s0 _] => destruct (IH (S a) s0 d) as (s' & A & B & D) end; auto.
    { rewrite st_S. pose proof skip_pos. lia. }
    { intros j Hj X. cbn [s_buf] in X. unfold keys in X. rewrite map_app, in_app_iff in X. destruct X as [X|[X|[]]].
      - apply (NK j); auto. lia.
      - cbn in X. apply st_inj in X. lia. }
    exists s'. split; auto. split; [|auto]. rewrite B. cbn [s_buf]. rewrite <- app_assoc. auto.
Qed.

Definition some_gap : Prop := exists i, (S i < N)%nat /\ g (S i) <> S (g i).
Definition CFok (cf : option (list drx_frame)) : Prop :=
  some_gap -> match cf with None => True | Some l => exists f r, l = f :: r /\ usable f end.

Lemma gap_at : forall file s E e m c p base, INV file s E e m c p base -> (e < N)%nat -> (E < g e)%nat ->
  exists i, e = S i /\ (g i < E)%nat /\ Z.of_nat (g e - E) < autofill /\ (e + c_nseg C + k <= N)%nat /\ inSt 0 = true /\ some_gap.
Proof.
  intros file s E e m c p base I He HE. destruct e as [|i]; [rewrite g_0 in HE; lia|]. exists i. split; auto.
  assert (LO : (g i < E)%nat) by (apply (n_lo _ _ _ _ _ _ _ _ I); lia). split; auto.
  destruct (GAPS i) as (A & B & (b & D) & _); auto; [lia|]. split; [lia|]. split; [lia|]. split; [apply (inSt_t [b; 1; 0]); auto|].
  exists i. split; [lia|lia].
Qed.

Lemma autofill_none : forall s cf E, autofill_gap bit6 skip autofill s cf (tm E) (tagE E 0) = Ok s.
Proof.
  intros s cf E. unfold autofill_gap. replace ((tagE E 0 =? 0) || (tm E =? tagE E 0 + skip)) with true; auto.
  symmetry. apply orb_true_iff. unfold tagE. destruct (inSt 0); auto. destruct E as [|E]; auto. right. apply Z.eqb_eq. apply st_S.
Qed.

Lemma autofill_some : forall file s E e m p base cf, INV file s E e m 0 p base -> (E < g e)%nat -> (c_nseg C <= m - e)%nat -> CFok cf ->
  exists s' base', autofill_gap bit6 skip autofill s cf (tm (g e)) (tagE E 0) = Ok s' /\ INV file s' E e m (g e - E) p base'.
Proof.
  intros file s E e m p base cf I HE HS HC. pose proof (n_em _ _ _ _ _ _ _ _ I) as EM.
  destruct (gap_at _ _ _ _ _ _ _ _ I ltac:(lia) HE) as (i & Ei & Hg & HA & _ & H0 & SG).
  destruct E as [|x]; [lia|]. unfold autofill_gap, tagE. rewrite H0.
  destruct (Z.eqb_spec (tm x) 0) as [Z0|_]; [destruct (st_nz _ Z0)|].
  destruct (Z.eqb_spec (tm (g e)) (tm x + skip)) as [Z1|_]; [rewrite <- st_S in Z1; apply st_inj in Z1; lia|]. cbn [orb]. cbv zeta.
  assert (D : tm (g e) - tm x - skip = Z.of_nat (g e - S x) * skip) by (unfold set_time; nia).
  pose proof skip_pos as SP. rewrite D, Z.mod_mul, Z.div_mul by lia. cbn [Z.eqb andb].
  destruct (Z.ltb_spec (Z.of_nat (g e - S x)) autofill) as [_|]; [|lia]. rewrite Nat2Z.id.
  assert (BASE : exists f, match cf with Some l => nth_error l 0 | None => match lookup (tm (g e)) (s_buf s) with Some l => nth_error l 0 | None => None end end = Some f /\ usable f).
  { specialize (HC SG). destruct cf as [l|].
    - destruct HC as (f & r & -> & U). exists f. auto.
    - rewrite (n_buf _ _ _ _ _ _ _ _ I), live_cons by lia. cbn [map app real lookup]. rewrite Z.eqb_refl.
      assert (X : In (tm (g e)) (tags p)).
      { apply first_seen_In. rewrite (n_first _ _ _ _ _ _ _ _ I). change (firstn m TT) with (live 0 m). apply live_In; [lia|]. exists e. split; [lia|auto]. }
      apply in_map_iff in X. destruct X as (f & X1 & X2).
      assert (Y : In f (at_tag (tm (g e)) p)) by (apply filter_In; split; auto; apply Z.eqb_eq; auto).
      destruct (at_tag (tm (g e)) p) as [|f' r] eqn:Q; [contradiction|]. exists f'. split; auto.
      assert (Z : In f' fs). { rewrite (n_split _ _ _ _ _ _ _ _ I). apply in_app_iff. left. assert (In f' (at_tag (tm (g e)) p)) by (rewrite Q; left; auto).
        apply filter_In in H. tauto. }
      split; [apply IDS; auto|apply fs_data; auto]. }
  destruct BASE as (f & -> & U). clear HA D. destruct (g e - S x)%nat as [|n] eqn:En; [lia|]. rewrite <- En. clear n En.
  change 1 with (Z.of_nat 1). rewrite (zero_frames_fill f _ x 0 (proj2 U)). replace (x + 1)%nat with (S x) by lia.
  destruct (append_fills f (g e - S x) (S x) s (tm x)) as (s' & A & B & Dn).
  { exact (n_done _ _ _ _ _ _ _ _ I). } { apply st_lt. lia. }
  { intros j Hj X. rewrite (n_buf _ _ _ _ _ _ _ _ I) in X. cbn [fills seq map] in X. rewrite app_nil_r, keys_real in X.
    apply live_In in X; [|lia]. destruct X as (i' & Hi' & X). apply st_inj in X. pose proof (g_le e i'). lia. }
  exists s', f. split; [exact A|]. split; try apply I.
  - rewrite B, (n_buf _ _ _ _ _ _ _ _ I). cbn [fills seq map]. rewrite app_nil_r. auto.
  - rewrite Dn. apply I.
  - right. repeat split; auto; try lia; apply U.
Qed.

(** *** One turn of the loop once the buffer is full *)
Definition END (e m c : nat) (file : list slot) : Prop := c = 0%nat /\ file = [] /\ m = N /\ (N < e + c_nseg C + k)%nat.

Lemma nogap : forall file s E e m p base, INV file s E e m 0 p base -> (e < N)%nat -> (N < e + c_nseg C + k)%nat -> E = g e.
Proof.
  intros file s E e m p base I He HN. pose proof (n_hi _ _ _ _ _ _ _ _ I He) as HI. destruct (Nat.eq_dec E (g e)); auto.
  destruct (gap_at _ _ _ _ _ _ _ _ I He) as (i & _ & _ & _ & X & _); lia.
Qed.
Lemma INV_length : forall file s E e m c p base, INV file s E e m c p base -> length (s_buf s) = (m - e + c)%nat.
Proof.
  intros file s E e m c p base I. rewrite (n_buf _ _ _ _ _ _ _ _ I), app_length, map_length. unfold fills.
  rewrite map_length, seq_length, live_length by apply I. auto.
Qed.
Lemma possible_ne : c_possible C <> [].
Proof.
  assert (H : In (hd 0 TT) TT).
  { pose proof N_pos as NP. rewrite <- TT_len in NP. destruct TT; [cbn in NP; lia|left; auto]. }
  unfold TT in H at 2. rewrite <- (rc_order _ _ _ _ _ RC) in H. apply (proj1 (first_seen_In _ _)) in H. apply in_map_iff in H. destruct H as (f & _ & Hf).
  apply IDS in Hf. intro X. rewrite X in Hf. contradiction.
Qed.
Lemma good_CF : forall j out, good_set j out -> out <> [] /\ CFok (Some out).
Proof.
  intros j out [HP HF]. assert (NE : out <> []).
  { intros ->. apply Permutation_nil in HP. apply possible_ne. auto. }
  split; auto. intros _. destruct out as [|f r]; [congruence|]. exists f, r. split; auto. split; [|apply HF; left; auto].
  eapply Permutation_in; [exact HP|]. left. auto.
Qed.

Lemma get_min : forall s t, (c_nseg C <= length (s_buf s))%nat -> min_key (keys (s_buf s)) = Some t ->
  peek C true s = Some t /\ get M C s = match get_key M C s t with Ok (s', o) => Ok (s', Some o) | Raise e => Raise e end.
Proof.
  intros s t H1 H2. assert (P : peek C true s = Some t).
  { unfold peek, filled. destruct (Nat.ltb_spec (length (s_buf s)) (c_nseg C)); [lia|]. auto. }
  split; auto. unfold get. rewrite P. auto.
Qed.

Lemma turn : forall n file s E0 E e m c p base cf, INV file s E e m c p base -> (c_nseg C <= length (s_buf s))%nat ->
  (E0 <= E)%nat -> (E - E0 < n)%nat -> (CFok cf \/ END e m c file) ->
  exists ct s2 s3 out e' c' base', peek C true s = Some ct /\
    autofill_gap bit6 skip autofill s cf ct (nth 0 (p_tag (accE E0 E)) 0) = Ok s2 /\ get M C s2 = Ok (s3, Some out) /\
    place_all skip ignore toff n (accE E0 E) out = Ok (accE E0 (S E)) /\ CFok (Some out) /\ INV file s3 (S E) e' m c' p base' /\
    (END e m c file -> END e' m c' file).
Proof.
  intros n file s E0 E e m c p base cf I HL H0 Hn HC. pose proof (n_em _ _ _ _ _ _ _ _ I) as EM.
  rewrite (INV_length _ _ _ _ _ _ _ _ I) in HL. change (nth 0 (p_tag (accE E0 E)) 0) with (tagE E 0).
  (* the emission, once there is no gap *)
  assert (EMIT : forall s2 c2 base2, INV file s2 E e m c2 p base2 -> (c_nseg C <= m - e + c2)%nat -> (c2 <> 0 \/ (e < m /\ E = g e))%nat ->
    exists s3 out e' c', get M C s2 = Ok (s3, Some out) /\ place_all skip ignore toff n (accE E0 E) out = Ok (accE E0 (S E)) /\ CFok (Some out) /\
      INV file s3 (S E) e' m c' p base2 /\ (e <= e')%nat /\ (c2 = 0 -> c' = 0)%nat).
  { intros s2 c2 base2 I2 HL2 HM. pose proof (INV_min _ _ _ _ _ _ _ _ I2 HM) as MK.
    destruct (get_min s2 (tm E)) as [_ G]; auto. { rewrite (INV_length _ _ _ _ _ _ _ _ I2). auto. }
    destruct c2 as [|c2].
    - destruct HM as [X|[He HE]]; [congruence|].
      destruct (emit_real _ _ _ _ _ _ _ I2 He HE) as (s3 & out & G3 & GS & I3).
      { apply (window_rest _ _ _ _ _ _ _ _ I2). lia. } { lia. }
      destruct (good_CF _ _ GS) as [NE CF']. exists s3, out, (S e), 0%nat. rewrite G, G3.
      repeat split; auto; try apply I3; try lia. apply place_set; auto.
    - destruct (emit_fill _ _ _ _ _ _ _ _ I2) as (s3 & out & G3 & GS & I3).
      destruct (good_CF _ _ GS) as [NE CF']. exists s3, out, e, c2. rewrite G, G3.
      split; auto. split; [apply place_set; auto|]. repeat split; auto; try apply I3; lia. }
  destruct (Nat.eq_dec c 0) as [->|Hc].
  - assert (He : (e < m)%nat) by lia.
    destruct (Nat.eq_dec E (g e)) as [HE|HE].
    + pose proof (INV_min _ _ _ _ _ _ _ _ I (or_intror (conj He HE))) as MK.
      destruct (get_min s (tm E)) as [P _]; auto. { rewrite (INV_length _ _ _ _ _ _ _ _ I). auto. }
      destruct (EMIT s 0%nat base I) as (s3 & out & e' & c' & A1 & A2 & A3 & A4 & A5 & A6); auto.
      exists (tm E), s, s3, out, e', c', base. rewrite autofill_none. split; auto. split; auto. split; auto. split; auto. split; auto. split; auto.
      intros (D1 & D2 & D3 & D4). repeat split; auto. lia.
    + pose proof (n_hi _ _ _ _ _ _ _ _ I). assert (HE' : (E < g e)%nat) by lia.
      assert (NE : ~ END e m 0 file).
      { intros (D1 & D2 & D3 & D4). apply HE. apply (nogap _ _ _ _ _ _ _ I); lia. }
      destruct HC as [HC|HC]; [|contradiction].
      destruct (autofill_some _ _ _ _ _ _ _ cf I HE') as (s2 & base2 & AF & I2); auto; [lia|].
      assert (MK : min_key (keys (s_buf s)) = Some (tm (g e))).
      { rewrite (n_buf _ _ _ _ _ _ _ _ I). cbn [fills seq map]. rewrite app_nil_r, keys_real. apply min_key_is.
        - apply live_In; [lia|]. exists e. split; [lia|auto].
        - intros x Hx. apply live_In in Hx; [|lia]. destruct Hx as (i & Hi & ->). pose proof (g_le e i). pose proof (st_lt (g i) (g e)). lia. }
      destruct (get_min s (tm (g e))) as [P _]; auto. { rewrite (INV_length _ _ _ _ _ _ _ _ I). auto. }
      destruct (EMIT s2 (g e - E)%nat base2 I2) as (s3 & out & e' & c' & A1 & A2 & A3 & A4 & A5 & A6); [lia|lia|].
      exists (tm (g e)), s2, s3, out, e', c', base2. split; auto. split; auto. split; auto. split; auto. split; auto. split; auto.
      intro D. contradiction.
  - pose proof (INV_min _ _ _ _ _ _ _ _ I (or_introl Hc)) as MK.
    destruct (get_min s (tm E)) as [P _]; auto. { rewrite (INV_length _ _ _ _ _ _ _ _ I). auto. }
    destruct (EMIT s c base I) as (s3 & out & e' & c' & A1 & A2 & A3 & A4 & A5 & A6); auto.
    exists (tm E), s, s3, out, e', c', base. rewrite autofill_none. split; auto. split; auto. split; auto. split; auto. split; auto. split; auto.
    intros (D1 & _). contradiction.
Qed.

(** *** Reading from the file *)
Lemma read_more : forall file s E e m c p base r fr b, INV file s E e m c p base -> (length (s_buf s) <= c_nseg C)%nat ->
  read_chunk k file = (r, fr, b) ->
  exists s' p' m', append M s fr = Ok s' /\ INV r s' E e m' 0 p' base /\ (b = true -> END e m' 0 r) /\
    (b = false -> CFok (Some fr)) /\ (length r <= length file)%nat /\ (b = false -> (length r < length file)%nat).
Proof.
  intros file s E e m c p base r fr b I HL R. rewrite (INV_length _ _ _ _ _ _ _ _ I) in HL. pose proof (n_em _ _ _ _ _ _ _ _ I) as EM.
  assert (c = 0)%nat by (destruct (n_fill _ _ _ _ _ _ _ _ I) as [X|X]; lia). subst c.
  destruct (read_chunk_ok _ _ _ _ _ R (INV_tail _ _ _ _ _ _ _ _ I)) as (pre & F1 & F2 & F3 & F4 & F5 & F6).
  assert (B : BUF s p e m).
  { split; try apply I.
    - rewrite (n_buf _ _ _ _ _ _ _ _ I). cbn [fills seq map]. apply app_nil_r.
    - eexists. split; [apply I|]. apply n_done_lt; apply I. }
  assert (SP : fs = p ++ fr ++ recorded r) by (rewrite <- F2; apply I).
  destruct (append_real fr s p e m (recorded r) B SP) as (s' & m' & A & B' & D & M').
  { intros f Hf. apply (n_rest _ _ _ _ _ _ _ _ I). rewrite F2. apply in_app_iff. auto. }
  exists s', (p ++ fr), m'. split; auto.
  assert (I' : INV r s' E e m' 0 (p ++ fr) base).
  { split; try apply I; try apply B'.
    - rewrite <- app_assoc. auto.
    - destruct (n_suffix _ _ _ _ _ _ _ _ I) as [pre0 X]. exists (pre0 ++ pre). rewrite X, F1, app_assoc. auto.
    - rewrite (b_buf _ _ _ _ B'). cbn [fills seq map]. rewrite app_nil_r. auto.
    - rewrite D. apply I.
    - intros f Hf. apply (n_rest _ _ _ _ _ _ _ _ I). rewrite F2. apply in_app_iff. auto.
    - left. auto.
    - intro X. apply (n_end _ _ _ _ _ _ _ _ I) in X. rewrite X in F1. symmetry in F1. apply app_eq_nil in F1. tauto. }
  split; auto. split; [|split; [|split]].
  - intro Hb. destruct (F4 Hb) as [-> Hlen]. repeat split; auto.
    + apply (INV_m_end _ _ _ _ _ _ _ _ I'). auto.
    + pose proof (INV_m_end _ _ _ _ _ _ _ _ I' eq_refl). lia.
  - intros Hb [i [Hi Hg]]. destruct (F5 Hb) as [Hp Hr]. destruct (GAPS i Hi Hg) as (_ & _ & _ & G4).
    destruct (n_suffix _ _ _ _ _ _ _ _ I) as [pre0 X]. rewrite F1 in X. destruct (G4 pre0 pre r X Hp) as [f Hf].
    assert (In f fr). { rewrite <- Hr. unfold recorded. apply in_flat_map. exists (SFrame f). split; auto. left. auto. }
    destruct fr as [|f' fr']; [contradiction|]. exists f', fr'. split; auto.
    assert (Z : In f' fs) by (rewrite SP; apply in_app_iff; right; left; auto).
    split; [apply IDS; auto|apply fs_data; auto].
  - rewrite F1, app_length. lia.
  - intro Hb. destruct (F5 Hb) as [Hp _]. rewrite F1, app_length. lia.
Qed.

(** *** The loop *)
Lemma loop_ok : forall fuel n file s E0 E e m c p base cf eof, INV file s E e m c p base -> (E0 <= E <= E0 + n)%nat ->
  (eof = false -> CFok cf) -> (eof = true -> END e m c file) ->
  (length file + (E0 + n - E) + (if eof then 0 else 1) < fuel)%nat ->
  exists file' s' E' e' m' c' p' base' eof',
    loop bit6 C k skip autofill ignore toff fuel n file s (accE E0 E) cf (E - E0) eof = Ok (file', s', accE E0 E', (E' - E0)%nat, eof') /\
    INV file' s' E' e' m' c' p' base' /\ (E <= E' <= E0 + n)%nat /\ (E' = E0 + n \/ (eof' = true /\ END e' m' c' file'))%nat.
Proof.
  induction fuel as [|fuel IH]; intros n file s E0 E e m c p base cf eof I HE HC HD HF; [lia|]. cbn [loop].
  destruct (eof || (E - E0 =? n)%nat) eqn:ST.
  - do 8 eexists. exists eof. split; [reflexivity|]. split; [exact I|]. split; [lia|].
    apply orb_true_iff in ST. destruct ST as [->|ST]; [right; auto|left]. apply Nat.eqb_eq in ST. lia.
  - apply orb_false_iff in ST. destruct ST as [-> ST]. apply Nat.eqb_neq in ST.
    unfold overfilled. destruct (Nat.ltb_spec (c_nseg C) (length (s_buf s))) as [OV|OV].
    + cbn [bind]. destruct (turn n file s E0 E e m c p base cf I) as (ct & s2 & s3 & out & e' & c' & base' & T1 & T2 & T3 & T4 & T5 & T6 & T7); auto; try lia.
      rewrite T1. rewrite T2. cbn [bind]. fold M. rewrite T3. cbn [bind]. rewrite T4. cbn [bind].
      replace (S (E - E0)) with (S E - E0)%nat by lia.
      destruct (IH n file s3 E0 (S E) e' m c' p base' (Some out) false) as (f' & s' & E' & e2 & m2 & c2 & p2 & b2 & eo2 & L1 & L2 & L3 & L4); auto; try lia; try discriminate.
      exists f', s', E', e2, m2, c2, p2, b2, eo2. split; auto. split; auto. split; [lia|auto].
    + destruct (read_chunk k file) as [[r fr] b] eqn:R.
      destruct (read_more _ _ _ _ _ _ _ _ _ _ _ I OV R) as (s1 & p1 & m1 & A & I1 & Hend & Hcf & Hlen & Hlen').
      fold M. rewrite A. cbn [bind orb].
      assert (HF' : (length r + (E0 + n - E) + (if b then 0 else 1) < fuel)%nat).
      { destruct b; [lia|]. specialize (Hlen' eq_refl). lia. }
      destruct (Nat.lt_ge_cases (length (s_buf s1)) (c_nseg C)) as [NF|FL].
      * assert (P : peek C true s1 = None).
        { unfold peek, filled. destruct (Nat.ltb_spec (length (s_buf s1)) (c_nseg C)); [|lia]. auto. }
        rewrite P.
        destruct (IH n r s1 E0 E e m1 0%nat p1 base (Some (if b then [] else fr)) b) as (f' & s' & E' & e2 & m2 & c2 & p2 & b2 & eo2 & L1 & L2 & L3 & L4); auto.
        { intros ->. auto. }
        exists f', s', E', e2, m2, c2, p2, b2, eo2. split; auto.
      * destruct (turn n r s1 E0 E e m1 0%nat p1 base (Some (if b then [] else fr)) I1) as (ct & s2 & s3 & out & e' & c' & base' & T1 & T2 & T3 & T4 & T5 & T6 & T7); auto; try lia.
        { destruct b; auto. }
        rewrite T1, T2. cbn [bind]. rewrite T3. cbn [bind]. rewrite T4. cbn [bind].
        replace (S (E - E0)) with (S E - E0)%nat by lia.
        destruct (IH n r s3 E0 (S E) e' m1 c' p1 base' (Some out) b) as (f' & s' & E' & e2 & m2 & c2 & p2 & b2 & eo2 & L1 & L2 & L3 & L4); auto; try lia.
        exists f', s', E', e2, m2, c2, p2, b2, eo2. split; auto. split; auto. split; [lia|auto].
Qed.

(** *** The end of the file *)
Lemma flush_ok : forall d n s E0 E e p base, (d = N - e)%nat -> INV [] s E e N 0 p base -> (N < e + c_nseg C + k)%nat -> (E0 <= E < E0 + n)%nat ->
  exists s' E' e', flush_some bit6 C skip ignore toff n s (live e N) (accE E0 E) (E - E0) = Ok (s', accE E0 E', (E' - E0)%nat) /\
    INV [] s' E' e' N 0 p base /\ E' = Nat.min (E0 + n) total.
Proof.
  induction d as [|d IH]; intros n s E0 E e p base Hd I HN HE; pose proof (n_em _ _ _ _ _ _ _ _ I) as EM.
  - assert (e = N) by lia. subst e. rewrite live_nil. exists s, E, N. split; auto. split; auto.
    pose proof (n_endE _ _ _ _ _ _ _ _ I eq_refl). lia.
  - assert (He : (e < N)%nat) by lia. pose proof (nogap _ _ _ _ _ _ _ I He HN) as GE.
    rewrite live_cons by lia. cbn [flush_some]. fold M.
    destruct (emit_real _ _ _ _ _ _ _ I He GE) as (s3 & out & G3 & GS & I3); auto.
    { intros f []. }
    rewrite GE in G3. rewrite G3. cbn [bind]. destruct (good_CF _ _ GS) as [NE _].
    rewrite place_set by (auto; lia). cbn [bind].
    pose proof (g_total e He) as GT.
    destruct (Nat.eqb_spec (S (E - E0)) n) as [X|X].
    + exists s3, (S E), (S e). split; [do 3 f_equal; lia|]. split; auto. lia.
    + replace (S (E - E0)) with (S E - E0)%nat by lia. apply IH; auto; lia.
Qed.

Lemma read_ok : forall n file s E e m c p base tag, INV file s E e m c p base -> (1 <= n)%nat ->
  (tag = Some (map (tagE E) [0; 1; 2; 3]%nat) \/ (tag = None /\ E = 0%nat)) -> (E < total)%nat ->
  exists file' s' E' e' m' c' p' base',
    read bit6 C k skip autofill ignore toff n (mkLdp file s tag) =
      Ok (mkLdp file' s' (Some (map (tagE E') [0; 1; 2; 3]%nat)), ((E' - E)%nat, Some (tm E - toff), map (rowE E (E' - E)) [0; 1; 2; 3]%nat)) /\
    INV file' s' E' e' m' c' p' base' /\ E' = Nat.min (E + n) total.
Proof.
  intros n file s E e m c p base tag I Hn HT HE. pose proof (n_em _ _ _ _ _ _ _ _ I) as EM.
  assert (TA : match tag with None => [0; 0; 0; 0] | Some t => t end = map (tagE E) [0; 1; 2; 3]%nat).
  { destruct HT as [->|[-> ->]]; auto. unfold tagE. cbn. destruct (inSt 0), (inSt 1), (inSt 2), (inSt 3); auto. }
  assert (A0 : mkPlaced (match tag with None => [0; 0; 0; 0] | Some t => t end) None [[]; []; []; []] = accE E E).
  { rewrite TA. unfold accE. rewrite Nat.sub_diag. f_equal. unfold rowE. cbn. destruct (inSt 0), (inSt 1), (inSt 2), (inSt 3); auto. }
  destruct (loop_ok (length file + n + 2) n file s E E e m c p base None false I) as (f1 & s1 & E1 & e1 & m1 & c1 & p1 & b1 & eo1 & L1 & L2 & L3 & L4); try lia; try discriminate.
  { intros _ _. auto. }
  rewrite Nat.sub_diag in L1.
  assert (X : read bit6 C k skip autofill ignore toff n (mkLdp file s tag) =
     bind (loop bit6 C k skip autofill ignore toff (length file + n + 2) n file s (accE E E) None 0 false) (fun '(file, s, a, nsets, eof) =>
      bind (if eof && negb (nsets =? n)%nat then flush_some bit6 C skip ignore toff n s (keys (s_buf s)) a nsets else Ok (s, a, nsets)) (fun '(s', a', nsets') =>
        Ok (mkLdp file s' (Some (p_tag a')), (nsets', p_time a', p_rows a'))))).
  { unfold read. cbn [l_file l_buf l_tag]. rewrite A0. destruct file as [|x file]; auto.
    destruct (is_empty s) eqn:EMP; auto. exfalso. unfold is_empty in EMP.
    pose proof (INV_m_end _ _ _ _ _ _ _ _ I eq_refl) as MN. pose proof (INV_length _ _ _ _ _ _ _ _ I) as LN.
    assert (length (s_buf s) = 0)%nat by (destruct (s_buf s); [auto|discriminate]).
    assert (EN : e = N) by lia. apply (n_endE _ _ _ _ _ _ _ _ I) in EN. lia. }
  rewrite X, L1. cbn [bind].
  assert (POST : exists s2 E2 e2 m2 c2 p2 b2, (if eo1 && negb (E1 - E =? n)%nat then flush_some bit6 C skip ignore toff n s1 (keys (s_buf s1)) (accE E E1) (E1 - E) else Ok (s1, accE E E1, (E1 - E)%nat))
      = Ok (s2, accE E E2, (E2 - E)%nat) /\ INV f1 s2 E2 e2 m2 c2 p2 b2 /\ E2 = Nat.min (E + n) total).
  { destruct (Nat.eqb_spec (E1 - E) n) as [Y|Y].
    - rewrite andb_false_r. exists s1, E1, e1, m1, c1, p1, b1. split; auto. split; auto.
      assert (E1 <= total)%nat; [|lia]. destruct (Nat.eq_dec e1 N) as [Z|Z]; [apply (n_endE _ _ _ _ _ _ _ _ L2) in Z; lia|].
      pose proof (n_em _ _ _ _ _ _ _ _ L2). pose proof (n_hi _ _ _ _ _ _ _ _ L2). pose proof (g_total e1). lia.
    - destruct L4 as [L4|[-> (D1 & D2 & D3 & D4)]]; [lia|]. subst. cbn [negb andb].
      destruct (flush_ok (N - e1) n s1 E E1 e1 p1 b1) as (s2 & E2 & e2 & F1 & F2 & F3); auto; [lia|].
      exists s2, E2, e2, N, 0%nat, p1, b1. split; auto. rewrite <- F1. f_equal.
      rewrite (n_buf _ _ _ _ _ _ _ _ L2). cbn [fills seq map]. rewrite app_nil_r. apply keys_real. }
  destruct POST as (s2 & E2 & e2 & m2 & c2 & p2 & b2 & P1 & P2 & P3). rewrite P1. cbn [bind].
  exists f1, s2, E2, e2, m2, c2, p2, b2. split; auto. do 3 f_equal. unfold accE. cbn [p_time]. unfold timeE.
  destruct (E2 - E)%nat eqn:Q; [lia|]. auto.
Qed.

Lemma reads_ok : forall ns file s E e m c p base tag, INV file s E e m c p base -> Forall (fun n => (1 <= n)%nat) ns ->
  (tag = Some (map (tagE E) [0; 1; 2; 3]%nat) \/ (tag = None /\ E = 0%nat)) ->
  in_order file0 t0 skip toff L total E ns (reads bit6 C k skip autofill ignore toff ns (mkLdp file s tag)).
Proof.
  induction ns as [|n ns IH]; intros file s E e m c p base tag I HN HT; [constructor|]. inversion HN as [|? ? N1 N2]; subst.
  cbn [reads]. destruct (Nat.lt_ge_cases E total) as [HE|HE].
  - destruct (read_ok n file s E e m c p base tag I N1 HT HE) as (f' & s' & E' & e' & m' & c' & p' & b' & R & I' & EE). rewrite R.
    replace E' with (E + (E' - E))%nat in I' by lia.
    apply io_read; auto; try lia.
    + intros a Ha. rewrite nth_map4 by auto. unfold array_row, rowE. destruct (inSt a) eqn:IS.
      * rewrite map_length, seq_length. auto.
      * cbn [app length]. rewrite Nat.sub_0_r.
        assert (BZ : forall j, blk j a = zeros).
        { intro j. apply block_none. intros f Hf _ S. rewrite stand_sid in S. rewrite (inSt_t (mid f) a) in IS; [discriminate| |auto]. apply IDS. auto. }
        rewrite (map_ext _ (fun _ => zeros)) by (intro; apply BZ). fold zeros.
        replace n with ((E' - E) + (n - (E' - E)))%nat at 1 by lia. rewrite repeat_app. f_equal.
        generalize 0%nat. clear. induction (E' - E)%nat as [|x IH]; intro y; cbn; auto. f_equal. apply IH.
    + apply IH with (e := e') (m := m') (c := c') (p := p') (base := b'); auto. left. repeat f_equal. lia.
  - assert (EN : e = N).
    { destruct (Nat.eq_dec e N) as [X|X]; auto. pose proof (n_em _ _ _ _ _ _ _ _ I). pose proof (n_hi _ _ _ _ _ _ _ _ I). pose proof (g_total e). lia. }
    pose proof (n_end _ _ _ _ _ _ _ _ I EN) as ->. pose proof (n_em _ _ _ _ _ _ _ _ I) as EM.
    assert (LN : length (s_buf s) = 0%nat).
    { rewrite (INV_length _ _ _ _ _ _ _ _ I). destruct (n_fill _ _ _ _ _ _ _ _ I) as [X|X]; lia. }
    unfold read. cbn [l_file l_buf]. unfold is_empty. destruct (s_buf s); [|discriminate]. apply io_end. auto.
Qed.

Theorem reads_in_order : forall ns, Forall (fun n => (1 <= n)%nat) ns ->
  in_order file0 t0 skip toff L total 0 ns (reads bit6 C k skip autofill ignore toff ns (open_ldp C file0)).
Proof.
  intros ns H. unfold open_ldp.
  apply reads_ok with (e := 0%nat) (m := 0%nat) (c := 0%nat) (p := []) (base := mkDrx 0 0 [] true); auto.
  split; auto; try lia.
  - exists []. auto.
  - unfold init. cbn [s_done]. destruct (c_nseg C); [lia|auto].
  - intros f Hf. apply (TT_In_skipn 0). destruct (fs_grid f Hf) as (i & Hi & ->). exists i. split; [lia|auto].
  - intro X. pose proof N_pos. lia.
  - intro X. pose proof N_pos. lia.
Qed.

End Main.
