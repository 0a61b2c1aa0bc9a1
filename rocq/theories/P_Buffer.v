(** Proofs about the generic frame buffer. *)
From Coq Require Import List ZArith Bool Lia Permutation Sorted.
From Verif Require Import M_Buffer S_Buffer.
Import ListNotations.
Open Scope Z_scope.

(** ** Elementary facts *)
Lemma id_eqb_eq : forall a b, id_eqb a b = true <-> a = b.
Proof.
  induction a as [|x a IH]; destruct b as [|y b]; simpl; split; intro H; try congruence; auto.
  - apply andb_true_iff in H. destruct H as [H1 H2].
    apply Z.eqb_eq in H1. apply IH in H2. congruence.
  - inversion H; subst. rewrite Z.eqb_refl. apply IH. reflexivity.
Qed.

Lemma id_in_In : forall x l, id_in x l = true <-> In x l.
Proof.
  intros x l. unfold id_in. rewrite existsb_exists. split.
  - intros [y [Hy He]]. apply id_eqb_eq in He. congruence.
  - intro H. exists x. split; auto. apply id_eqb_eq. reflexivity.
Qed.

Lemma id_in_false : forall x l, id_in x l = false <-> ~ In x l.
Proof.
  intros x l. rewrite <- id_in_In. destruct (id_in x l); split; intros; try congruence.
Qed.

Lemma id_set_In : forall x l, In x (id_set l) <-> In x l.
Proof.
  intros x l. induction l as [|y r IH]; simpl; [tauto|].
  destruct (id_in y r) eqn:E.
  - apply id_in_In in E. rewrite IH. split; [auto|]. intros [->|H]; auto.
  - simpl. rewrite IH. tauto.
Qed.

Lemma id_set_NoDup : forall l, NoDup (id_set l).
Proof.
  induction l as [|y r IH]; simpl; [constructor|].
  destruct (id_in y r) eqn:E; auto. constructor; auto.
  rewrite id_set_In. apply id_in_false. exact E.
Qed.

Lemma id_set_id : forall l, NoDup l -> id_set l = l.
Proof.
  induction 1 as [|x l Hx Hl IH]; simpl; auto.
  apply id_in_false in Hx. rewrite Hx, IH. reflexivity.
Qed.

Lemma deque_last_app : forall d x, deque_last (d ++ [x]) = Some x.
Proof.
  induction d as [|y d IH]; intro x; simpl; auto.
  rewrite IH. destruct (d ++ [x]) eqn:E; auto. destruct d; discriminate.
Qed.

Lemma deque_last_append : forall n d x, (1 <= n)%nat -> deque_last (deque_append n d x) = Some x.
Proof.
  intros [|n] d x H; [lia|]. unfold deque_append.
  destruct (Nat.leb (S n) (length d)); apply deque_last_app.
Qed.

Section BufferFacts.
Context {F : Type}.
Implicit Types (b : list (Z * list F)).

Lemma lookup_In : forall k l b, lookup k b = Some l -> In (k, l) b.
Proof.
  induction b as [|[k' l'] r IH]; simpl; [congruence|].
  destruct (Z.eqb_spec k k') as [->|]; intro H.
  - inversion H; auto.
  - right; auto.
Qed.

Lemma lookup_key : forall k b, In k (keys b) -> exists l, lookup k b = Some l.
Proof.
  induction b as [|[k' l'] r IH]; simpl; [tauto|].
  intro H. destruct (Z.eqb_spec k k') as [->|n]; eauto.
  destruct H as [H|H]; [congruence|auto].
Qed.

Lemma lookup_none : forall k b, ~ In k (keys b) -> lookup k b = None.
Proof.
  induction b as [|[k' l'] r IH]; simpl; auto.
  intro H. destruct (Z.eqb_spec k k') as [->|n]; [tauto|auto].
Qed.

Lemma add_frame_keys_in : forall k f b, In k (keys b) -> keys (add_frame k f b) = keys b.
Proof.
  induction b as [|[k' l'] r IH]; simpl; [tauto|].
  intro H. destruct (Z.eqb_spec k k') as [->|n]; simpl; auto.
  f_equal. apply IH. destruct H; [congruence|auto].
Qed.

Lemma add_frame_new : forall k f b, ~ In k (keys b) -> add_frame k f b = b ++ [(k, [f])].
Proof.
  induction b as [|[k' l'] r IH]; simpl; auto.
  intro H. destruct (Z.eqb_spec k k') as [->|n]; [tauto|].
  f_equal. auto.
Qed.

Lemma add_frame_keys_In : forall x k f b, In x (keys (add_frame k f b)) <-> x = k \/ In x (keys b).
Proof.
  intros x k f b. destruct (in_dec Z.eq_dec k (keys b)) as [Hi|Hi].
  - rewrite add_frame_keys_in by auto. split; auto. intros [->|]; auto.
  - rewrite add_frame_new by auto. unfold keys. rewrite map_app, in_app_iff. simpl. intuition.
Qed.

Lemma add_frame_NoDup : forall k f b, NoDup (keys b) -> NoDup (keys (add_frame k f b)).
Proof.
  intros k f b H. destruct (in_dec Z.eq_dec k (keys b)) as [Hi|Hi].
  - rewrite add_frame_keys_in; auto.
  - rewrite add_frame_new by auto. unfold keys. rewrite map_app. simpl.
    apply NoDup_Add with (a := k) (l := keys b).
    + unfold keys. rewrite <- (app_nil_r (map fst b)) at 1. apply Add_app.
    + auto.
Qed.

Lemma add_frame_perm : forall k f b,
  Permutation (concat (map snd (add_frame k f b))) (f :: concat (map snd b)).
Proof.
  induction b as [|[k' l'] r IH]; simpl; auto.
  destruct (Z.eqb_spec k k') as [->|n]; simpl.
  - rewrite <- app_assoc. simpl. symmetry. apply Permutation_middle.
  - rewrite IH. symmetry. apply Permutation_middle.
Qed.

Lemma add_frame_entries : forall k f b k' l', In (k', l') (add_frame k f b) ->
  In (k', l') b \/ (k' = k /\ ((exists l, In (k, l) b /\ l' = l ++ [f]) \/ l' = [f])).
Proof.
  induction b as [|[k0 l0] r IH]; simpl; intros k' l' H.
  - destruct H as [H|[]]. inversion H; subst. right. auto.
  - destruct (Z.eqb_spec k k0) as [->|n]; simpl in H.
    + destruct H as [H|H]; auto. inversion H; subst. right. split; auto.
      left. exists l0. auto.
    + destruct H as [H|H]; auto. apply IH in H.
      destruct H as [H|[H1 [(l & Hl & He)|H2]]]; auto; right; split; auto.
      left. exists l. auto.
Qed.

Lemma remove_key_In : forall k b e, In e (remove_key k b) -> In e b.
Proof.
  induction b as [|[k' l'] r IH]; simpl; auto.
  intros e H. destruct (Z.eqb_spec k k'); simpl in H; auto. destruct H; auto.
Qed.

Lemma remove_key_keys_In : forall x k b, NoDup (keys b) ->
  (In x (keys (remove_key k b)) <-> x <> k /\ In x (keys b)).
Proof.
  induction b as [|[k' l'] r IH]; simpl; [tauto|].
  intro H. inversion H as [|? ? Hn Hd]; subst.
  destruct (Z.eqb_spec k k') as [->|n].
  - unfold keys in *. split.
    + intro Hx. split; auto. intros ->. auto.
    + intros [H1 [H2|H2]]; [congruence|auto].
  - simpl. rewrite IH by auto. split; [|intuition].
    intros [->|[]]; auto.
Qed.

Lemma remove_key_NoDup : forall k b, NoDup (keys b) -> NoDup (keys (remove_key k b)).
Proof.
  induction b as [|[k' l'] r IH]; simpl; auto.
  intro H. inversion H as [|? ? Hn Hd]; subst.
  destruct (Z.eqb_spec k k') as [->|n]; auto.
  simpl. constructor; auto. rewrite remove_key_keys_In by auto. tauto.
Qed.

Lemma remove_key_length : forall k b, In k (keys b) -> S (length (remove_key k b)) = length b.
Proof.
  induction b as [|[k' l'] r IH]; simpl; [tauto|].
  intro H. destruct (Z.eqb_spec k k') as [->|n]; auto.
  simpl. rewrite IH; auto. destruct H; [congruence|auto].
Qed.

Lemma remove_key_perm : forall k l b, lookup k b = Some l ->
  Permutation (concat (map snd b)) (l ++ concat (map snd (remove_key k b))).
Proof.
  induction b as [|[k' l'] r IH]; simpl; [congruence|].
  destruct (Z.eqb_spec k k') as [->|n]; intro H.
  - inversion H; subst. reflexivity.
  - simpl. rewrite IH by auto. rewrite !app_assoc.
    apply Permutation_app_tail. apply Permutation_app_comm.
Qed.

Lemma min_key_none : forall l, min_key l = None <-> l = [].
Proof.
  destruct l as [|x r]; simpl; split; auto; try congruence.
  destruct (min_key r); congruence.
Qed.

Lemma min_key_some : forall l m, min_key l = Some m -> In m l /\ forall x, In x l -> m <= x.
Proof.
  induction l as [|x r IH]; simpl; [congruence|].
  intros m H. destruct (min_key r) as [y|] eqn:E.
  - inversion H; subst. destruct (IH y eq_refl) as [H1 H2]. split.
    + destruct (Z.min_spec x y) as [[? ->]|[? ->]]; auto.
    + intros z [->|Hz]; [lia|]. specialize (H2 z Hz). lia.
  - inversion H; subst. apply min_key_none in E. subst. split; simpl; auto.
    intros z [->|[]]. lia.
Qed.
End BufferFacts.

Section Base.
Context {F : Type} (M : ops F) (C : cfg).
Implicit Types (s : st F) (l : list F).

(** *** dedupe *)
Lemma dedupe_spec : forall l seen o n, dedupe M seen l = (o, n) ->
  (exists dr, n = Z.of_nat (length dr) /\ Permutation l (dr ++ o)) /\
  (forall f, In f o -> In f l) /\
  NoDup (map (o_did M) o) /\ (forall f, In f o -> ~ In (o_did M f) seen) /\
  (forall f, In f l -> In (o_did M f) seen \/ In (o_did M f) (map (o_did M) o)).
Proof.
  induction l as [|f r IH]; simpl; intros seen o n H.
  - inversion H; subst. split; [exists []; auto|]. split; auto. split; [constructor|]. simpl. auto.
  - destruct (id_in (o_did M f) seen) eqn:E.
    + destruct (dedupe M seen r) as [o' n'] eqn:D. inversion H; subst; clear H.
      destruct (IH _ _ _ D) as ((dr & Hn & Hp) & H2 & H3 & H4 & H5).
      split; [|split; [|split; [|split]]]; auto.
      * exists (f :: dr). split; [simpl length; lia|]. simpl. auto.
      * intros g [<-|Hg]; auto. left. apply id_in_In. exact E.
    + destruct (dedupe M (seen ++ [o_did M f]) r) as [o' n'] eqn:D. inversion H; subst; clear H.
      destruct (IH _ _ _ D) as ((dr & Hn & Hp) & H2 & H3 & H4 & H5).
      apply id_in_false in E.
      split; [|split; [|split; [|split]]].
      * exists dr. split; auto. rewrite Hp. apply Permutation_middle.
      * intros g [<-|Hg]; auto.
      * simpl. constructor; auto. intro Hi. apply in_map_iff in Hi.
        destruct Hi as (g & Hg1 & Hg2). apply (H4 g Hg2). rewrite Hg1.
        apply in_app_iff. simpl. auto.
      * intros g [<-|Hg]; auto. intro Hi. apply (H4 g Hg). apply in_app_iff. auto.
      * intros g [<-|Hg]; [right; simpl; auto|]. destruct (H5 g Hg) as [Hs|Hs].
        -- apply in_app_iff in Hs. destruct Hs as [Hs|[Hs|[]]]; auto. right. simpl. auto.
        -- right. simpl. auto.
Qed.

Lemma insert_stable_perm : forall f l, Permutation (insert_stable M f l) (f :: l).
Proof.
  induction l as [|g r IH]; simpl; auto.
  destruct (_ <=? _); auto. rewrite IH. apply perm_swap.
Qed.

Lemma sort_stable_perm : forall l, Permutation (sort_stable M l) l.
Proof.
  induction l as [|f r IH]; simpl; auto.
  rewrite insert_stable_perm. auto.
Qed.

(** *** get *)
Definition maybe_sort (l : list F) : list F := if c_reorder C then sort_stable M l else l.

Lemma maybe_sort_perm : forall l, Permutation (maybe_sort l) l.
Proof. intro l. unfold maybe_sort. destruct (c_reorder C); auto. apply sort_stable_perm. Qed.

Lemma get_key_cases : forall s k s' o, get_key M C s k = Ok (s', o) ->
  exists l out fu pa dr mi, lookup k (s_buf s) = Some l /\ o = maybe_sort out /\
   s' = mkSt (remove_key k (s_buf s)) (deque_append (c_nseg C) (s_done s) k) fu pa dr mi /\
   ((length l = c_nframes C /\ out = l /\ fu = s_full s + 1 /\ pa = s_partial s /\
      dr = s_dropped s /\ mi = s_missing s) \/
    ((length l < c_nframes C)%nat /\
      out = l ++ match l with [] => [] | t :: _ => map (o_fill M t) (missing_list M C l) end /\
      fu = s_full s /\ pa = s_partial s + 1 /\ dr = s_dropped s /\
      mi = s_missing s + Z.of_nat (c_nframes C - length l)) \/
    ((c_nframes C < length l)%nat /\ exists d, dedupe M [] l = (out, d) /\
      fu = s_full s + 1 /\ pa = s_partial s /\ dr = s_dropped s + d /\ mi = s_missing s)).
Proof.
  intros s k s' o H. unfold get_key in H.
  destruct (lookup k (s_buf s)) as [l|] eqn:L; [|congruence].
  destruct (Nat.eqb_spec (length l) (c_nframes C)) as [E|E].
  - inversion H; subst. do 6 eexists. split; [reflexivity|]. split; [reflexivity|].
    split; [reflexivity|]. left. repeat split; auto.
  - destruct (Nat.ltb_spec (length l) (c_nframes C)) as [E'|E'].
    + inversion H; subst. do 6 eexists. split; [reflexivity|]. split; [reflexivity|].
      split; [reflexivity|]. right; left. repeat split; auto.
    + destruct (dedupe M [] l) as [o1 d1] eqn:D. inversion H; subst.
      do 6 eexists. split; [reflexivity|]. split; [reflexivity|].
      split; [reflexivity|]. right; right. split; [lia|]. exists d1. repeat split; auto.
Qed.

End Base.

Section Proofs.
Context {F : Type} (M : ops F) (C : cfg).
Context (Hseg : (1 <= c_nseg C)%nat).
Context (Hfom : forall t i, o_fom M (o_fill M t i) = o_fom M t).

Implicit Types (s : st F) (l : list F).

(** Weak invariant (also during a flush). *)
Record WInv s : Prop := mkWInv {
  w_nodup : NoDup (keys (s_buf s));
  w_entry : forall k l, In (k, l) (s_buf s) -> l <> [] /\ forall f, In f l -> o_fom M f = k;
  w_done : exists d, deque_last (s_done s) = Some d
}.

(** Strong invariant: everything buffered is newer than the last emission. *)
Record Inv s : Prop := mkInv {
  i_weak : WInv s;
  i_newer : forall d k, deque_last (s_done s) = Some d -> In k (keys (s_buf s)) -> d < k
}.

Lemma init_Inv : forall fl, Inv (init C fl).
Proof.
  intro fl. unfold init. split.
  - split; simpl; try constructor.
    + contradiction.
    + contradiction.
    + destruct (c_nseg C); [lia|]. exists fl. reflexivity.
  - simpl. tauto.
Qed.

Lemma reset_Inv : forall s, Inv (reset C s).
Proof.
  intros s. unfold reset. split; [split|]; simpl; try constructor; try tauto.
  exists 0. apply deque_last_append. exact Hseg.
Qed.

Lemma append_one_late : forall s f d, deque_last (s_done s) = Some d -> o_fom M f <= d ->
  append_one M s f = Ok (mkSt (s_buf s) (s_done s) (s_full s) (s_partial s) (s_dropped s + 1) (s_missing s)).
Proof.
  intros s f d H1 H2. unfold append_one. rewrite H1.
  destruct (Z.leb_spec (o_fom M f) d); [reflexivity|lia].
Qed.

Lemma append_one_new : forall s f d, deque_last (s_done s) = Some d -> d < o_fom M f ->
  append_one M s f = Ok (mkSt (add_frame (o_fom M f) f (s_buf s)) (s_done s)
     (s_full s) (s_partial s) (s_dropped s) (s_missing s)).
Proof.
  intros s f d H1 H2. unfold append_one. rewrite H1.
  destruct (Z.leb_spec (o_fom M f) d); [lia|reflexivity].
Qed.

Lemma append_one_total : forall s f, WInv s -> exists s', append_one M s f = Ok s'.
Proof.
  intros s f [_ _ [d Hd]]. unfold append_one. rewrite Hd.
  destruct (_ <=? _); eauto.
Qed.

Lemma append_one_done : forall s f s', append_one M s f = Ok s' -> s_done s' = s_done s.
Proof.
  unfold append_one. intros s f s' H. destruct (deque_last (s_done s)); [|congruence].
  destruct (_ <=? _); inversion H; reflexivity.
Qed.

Lemma append_one_WInv : forall s f s', WInv s -> append_one M s f = Ok s' -> WInv s'.
Proof.
  intros s f s' [H1 H2 [d Hd]] H. unfold append_one in H. rewrite Hd in H.
  destruct (Z.leb_spec (o_fom M f) d); inversion H; subst; clear H.
  - split; simpl; eauto.
  - split; simpl; eauto.
    + apply add_frame_NoDup; auto.
    + intros k l Hi. apply add_frame_entries in Hi.
      destruct Hi as [Hi|[-> [(l0 & Hl0 & ->)| ->]]]; auto.
      * destruct (H2 _ _ Hl0) as [Ha Hb]. split; [destruct l0; simpl; congruence|].
        intros g Hg. apply in_app_iff in Hg. destruct Hg as [Hg|[<-|[]]]; auto.
      * split; [congruence|]. intros g [<-|[]]. reflexivity.
Qed.

Lemma append_one_Inv : forall s f s', Inv s -> append_one M s f = Ok s' -> Inv s'.
Proof.
  intros s f s' [HW HN] H. split; [eapply append_one_WInv; eauto|].
  unfold append_one in H. destruct (deque_last (s_done s)) as [d0|] eqn:Hd; [|congruence].
  destruct (Z.leb_spec (o_fom M f) d0); inversion H; subst; clear H; simpl.
  - rewrite Hd. intros d k Hdd. inversion Hdd; subst. apply HN; auto.
  - rewrite Hd. intros d k Hdd Hk. inversion Hdd; subst.
    apply add_frame_keys_In in Hk. destruct Hk as [->|Hk]; auto.
Qed.

Lemma append_Inv : forall fs s s', Inv s -> append M s fs = Ok s' -> Inv s'.
Proof.
  induction fs as [|f r IH]; simpl; intros s s' HI H; [congruence|].
  destruct (append_one M s f) eqn:E; [|congruence].
  eapply IH; [|exact H]. eapply append_one_Inv; eauto.
Qed.

Lemma append_WInv : forall fs s s', WInv s -> append M s fs = Ok s' -> WInv s'.
Proof.
  induction fs as [|f r IH]; simpl; intros s s' HI H; [congruence|].
  destruct (append_one M s f) eqn:E; [|congruence].
  eapply IH; [|exact H]. eapply append_one_WInv; eauto.
Qed.

Lemma append_total : forall fs s, WInv s -> exists s', append M s fs = Ok s'.
Proof.
  induction fs as [|f r IH]; simpl; intros s H; eauto.
  destruct (append_one_total s f H) as [s' E]. rewrite E.
  apply IH. eapply append_one_WInv; eauto.
Qed.

Lemma append_done : forall fs s s', append M s fs = Ok s' -> s_done s' = s_done s.
Proof.
  induction fs as [|f r IH]; simpl; intros s s' H; [congruence|].
  destruct (append_one M s f) eqn:E; [|congruence].
  rewrite (IH _ _ H). eapply append_one_done; eauto.
Qed.

Lemma get_key_WInv : forall s k s' o, WInv s -> get_key M C s k = Ok (s', o) ->
  WInv s' /\ deque_last (s_done s') = Some k /\ s_buf s' = remove_key k (s_buf s) /\ In k (keys (s_buf s)).
Proof.
  intros s k s' o [H1 H2 H3] H.
  destruct (get_key_cases M C _ _ _ _ H) as (l & out & fu & pa & dr & mi & L & -> & -> & _). simpl.
  assert (Hk : In k (keys (s_buf s))).
  { apply lookup_In in L. unfold keys. change k with (fst (k, l)). apply in_map. auto. }
  assert (D : deque_last (deque_append (c_nseg C) (s_done s) k) = Some k) by (apply deque_last_append; auto).
  split; [|auto]. split; simpl.
  - apply remove_key_NoDup; auto.
  - intros k0 l0 Hi. apply H2. eapply remove_key_In; eauto.
  - eauto.
Qed.

Lemma get_key_total : forall s k, In k (keys (s_buf s)) -> exists s' o, get_key M C s k = Ok (s', o).
Proof.
  intros s k H. apply lookup_key in H. destruct H as [l L]. unfold get_key. rewrite L.
  destruct (Nat.eqb _ _); eauto. destruct (Nat.ltb _ _); eauto.
  destruct (dedupe M [] l); eauto.
Qed.

(** The frames returned for key [k] are non-empty and all stamped [k]. *)
Lemma get_key_out : forall s k s' o, WInv s -> get_key M C s k = Ok (s', o) ->
  o <> [] /\ forall f, In f o -> o_fom M f = k.
Proof.
  intros s k s' o [H1 H2 H3] H.
  destruct (get_key_cases M C _ _ _ _ H) as (l & out & fu & pa & dr & mi & L & -> & -> & HC).
  apply lookup_In in L. destruct (H2 _ _ L) as [Hne Hk].
  assert (P : out <> [] /\ forall f, In f out -> o_fom M f = k).
  { destruct HC as [(_ & -> & _)|[(_ & -> & _)|(_ & d & D & _)]]; auto.
    - destruct l as [|t r]; [congruence|]. split; [simpl; congruence|].
      intros f Hf. apply in_app_iff in Hf. destruct Hf as [Hf|Hf]; auto.
      apply in_map_iff in Hf. destruct Hf as (i & <- & _). rewrite Hfom. apply Hk. simpl; auto.
    - destruct (dedupe_spec M _ _ _ _ D) as (_ & Hin & _ & _ & Hcov). split; auto.
      destruct l as [|t r]; [congruence|]. destruct (Hcov t) as [[]|Hi]; [simpl; auto|].
      destruct out; simpl in *; [tauto|congruence]. }
  destruct P as [P1 P2]. split.
  - intro E. pose proof (maybe_sort_perm M C out) as Hp. rewrite E in Hp.
    apply Permutation_nil in Hp. auto.
  - intros f Hf. apply P2. eapply Permutation_in; [apply maybe_sort_perm|exact Hf].
Qed.

Lemma peek_some : forall rf s k, peek C rf s = Some k ->
  In k (keys (s_buf s)) /\ forall x, In x (keys (s_buf s)) -> k <= x.
Proof.
  unfold peek. intros rf s k H. destruct (rf && _); [congruence|].
  apply min_key_some. exact H.
Qed.

Lemma get_Inv : forall s s' o, Inv s -> get M C s = Ok (s', o) -> Inv s'.
Proof.
  intros s s' o [HW HN] H. unfold get in H.
  destruct (peek C true s) as [k|] eqn:P; [|inversion H; subst; split; auto].
  destruct (get_key M C s k) as [[s1 o1]|] eqn:G; [|congruence].
  inversion H; subst; clear H.
  destruct (get_key_WInv _ _ _ _ HW G) as (HW' & HD & HB & HK).
  split; auto. intros d x Hd Hx. rewrite HD in Hd. inversion Hd; subst.
  rewrite HB in Hx. apply remove_key_keys_In in Hx; [|apply w_nodup; auto].
  destruct Hx as [Hne Hx]. destruct (peek_some _ _ _ P) as [_ Hm]. specialize (Hm x Hx). lia.
Qed.

Lemma get_total : forall s, exists s' o, get M C s = Ok (s', o).
Proof.
  intros s. unfold get. destruct (peek C true s) as [k|] eqn:P; eauto.
  destruct (peek_some _ _ _ P) as [Hk _].
  destruct (get_key_total s k Hk) as (s' & o & E). rewrite E. eauto.
Qed.

Lemma get_none : forall s s' , get M C s = Ok (s', None) <->
  s' = s /\ (length (s_buf s) < c_nseg C)%nat.
Proof.
  intros s s'. unfold get. destruct (peek C true s) as [k|] eqn:P.
  - destruct (peek_some _ _ _ P) as [Hk _].
    destruct (get_key_total s k Hk) as (s1 & o & E). rewrite E.
    split; [congruence|]. intros [_ Hl]. unfold peek, filled in P.
    apply Nat.ltb_lt in Hl. rewrite Hl in P. simpl in P. congruence.
  - split.
    + intro H; inversion H; subst. split; auto. unfold peek, filled in P. simpl in P.
      rewrite negb_involutive in P. destruct (Nat.ltb_spec (length (s_buf s')) (c_nseg C)); auto.
      apply min_key_none in P. unfold keys in P. apply map_eq_nil in P.
      rewrite P in *. simpl in *. lia.
    + intros [-> _]. reflexivity.
Qed.

Lemma get_some : forall s s' o, WInv s -> get M C s = Ok (s', Some o) ->
  exists k, peek C true s = Some k /\ get_key M C s k = Ok (s', o) /\
    (c_nseg C <= length (s_buf s))%nat.
Proof.
  intros s s' o HW H. unfold get in H.
  destruct (peek C true s) as [k|] eqn:P; [|congruence].
  destruct (get_key M C s k) as [[s1 o1]|] eqn:G; [|congruence].
  inversion H; subst. exists k. split; auto. split; auto.
  unfold peek, filled in P. simpl in P. rewrite negb_involutive in P.
  destruct (Nat.ltb_spec (length (s_buf s)) (c_nseg C)); [congruence|auto].
Qed.

(** *** Order of emission over histories of append and get *)
Local Notation before := (before (o_fom M)).

Lemma step_app_get : forall s o, Inv s -> app_or_get o ->
  exists s' out, step M C s o = Ok (s', out) /\ Inv s' /\
   (forall d d', deque_last (s_done s) = Some d -> deque_last (s_done s') = Some d' ->
      d <= d' /\
      Forall (fun l => l <> [] /\ forall f, In f l -> d < o_fom M f /\ o_fom M f = d') out) /\
   (length out <= 1)%nat.
Proof.
  intros s o HI Ho. destruct o as [fs| | |]; simpl in Ho; try tauto.
  - destruct (append_total fs s (i_weak _ HI)) as [s' E]. simpl. rewrite E.
    exists s', []. split; auto. split; [eapply append_Inv; eauto|].
    split; [|simpl; lia].
    rewrite (append_done _ _ _ E). intros d d' H1 H2. rewrite H1 in H2. inversion H2; subst.
    split; [lia|constructor].
  - destruct (get_total s) as (s' & o & E). simpl. rewrite E.
    pose proof (get_Inv _ _ _ HI E) as HI'.
    destruct o as [l|].
    + exists s', [l]. split; auto. split; auto. split; [|simpl; lia].
      destruct (get_some _ _ _ (i_weak _ HI) E) as (k & P & G & _).
      destruct (get_key_WInv _ _ _ _ (i_weak _ HI) G) as (_ & HD & _ & HK).
      destruct (get_key_out _ _ _ _ (i_weak _ HI) G) as [Ho1 Ho2].
      intros d d' Hd Hd'. rewrite HD in Hd'. inversion Hd'; subst.
      pose proof (i_newer _ HI _ _ Hd HK). split; [lia|].
      constructor; [|constructor]. split; auto. intros f Hf. rewrite (Ho2 f Hf). auto.
    + exists s', []. split; auto. split; auto. split; [|simpl; lia].
      apply get_none in E. destruct E as [-> _].
      intros d d' H1 H2. rewrite H1 in H2. inversion H2; subst. split; [lia|constructor].
Qed.

Lemma run_order : forall os s d, Inv s -> deque_last (s_done s) = Some d -> Forall app_or_get os ->
  exists s' outs, run M C s os = Ok (s', outs) /\ Inv s' /\
    StronglySorted before outs /\
    Forall (fun l => l <> [] /\ forall f, In f l -> d < o_fom M f) outs /\
    Forall (fun l => forall f g, In f l -> In g l -> o_fom M f = o_fom M g) outs.
Proof.
  induction os as [|o r IH]; intros s d HI Hd Ho.
  - exists s, []. simpl. split; auto. split; auto. split; constructor; constructor.
  - inversion Ho as [|? ? Ho1 Ho2]; subst.
    destruct (step_app_get s o HI Ho1) as (s1 & out & E & HI1 & Hout & Hlen).
    destruct (w_done _ (i_weak _ HI1)) as [d1 Hd1].
    destruct (Hout _ _ Hd Hd1) as [Hle Hall].
    destruct (IH s1 d1 HI1 Hd1 Ho2) as (s2 & outs & E2 & HI2 & HS & HF & HC).
    exists s2, (out ++ outs). simpl. rewrite E, E2. split; auto. split; auto.
    rewrite Forall_forall in Hall, HF, HC.
    split; [|split].
    + destruct out as [|l [|? ?]]; simpl in *; [auto| |lia].
      constructor; auto. apply Forall_forall. intros l' Hl' f g Hf Hg.
      destruct (Hall l (or_introl eq_refl)) as [_ Ha]. destruct (Ha f Hf) as [_ ->].
      apply (HF l' Hl'). auto.
    + apply Forall_forall. intros l Hl. apply in_app_iff in Hl. destruct Hl as [Hl|Hl].
      * destruct (Hall l Hl) as [Ha Hb]. split; auto. intros f Hf. apply Hb; auto.
      * destruct (HF l Hl) as [Ha Hb]. split; auto. intros f Hf. specialize (Hb f Hf). lia.
    + apply Forall_forall. intros l Hl f g Hf Hg. apply in_app_iff in Hl. destruct Hl as [Hl|Hl].
      * destruct (Hall l Hl) as [_ Hb]. destruct (Hb f Hf) as [_ ->]. destruct (Hb g Hg) as [_ ->]. auto.
      * apply (HC l Hl); auto.
Qed.
End Proofs.

(** ** Refinement: buffer contents as a function of the appended frames *)
Definition entry {F} (k : Z) (b : list (Z * list F)) : list F :=
  match lookup k b with None => [] | Some l => l end.

Lemma entry_add : forall F (k k0 : Z) (f : F) b,
  entry k (add_frame k0 f b) = if k =? k0 then entry k b ++ [f] else entry k b.
Proof.
  unfold entry. induction b as [|[k' l'] r IH]; simpl.
  - destruct (Z.eqb_spec k k0); auto.
  - destruct (Z.eqb_spec k0 k') as [->|n]; simpl.
    + destruct (Z.eqb_spec k k'); auto.
    + destruct (Z.eqb_spec k k') as [->|n'].
      * destruct (Z.eqb_spec k' k0); [congruence|auto].
      * exact IH.
Qed.

Lemma entry_remove : forall F (k k0 : Z) (b : list (Z * list F)), k <> k0 ->
  entry k (remove_key k0 b) = entry k b.
Proof.
  unfold entry. induction b as [|[k' l'] r IH]; simpl; auto; intro H.
  destruct (Z.eqb_spec k0 k') as [->|n]; simpl.
  - destruct (Z.eqb_spec k k'); [congruence|auto].
  - destruct (Z.eqb_spec k k'); auto.
Qed.

Section Refine.
Context {F : Type} (M : ops F) (C : cfg).
Context (Hseg : (1 <= c_nseg C)%nat).
Context (Hfom : forall t i, o_fom M (o_fill M t i) = o_fom M t).

(** [R A d s]: state [s] reached after appending [A], having last emitted [d]. *)
Definition R (A : list F) (d : Z) (s : st F) : Prop :=
  Inv M s /\ deque_last (s_done s) = Some d /\
  forall k, d < k -> entry k (s_buf s) = at_stamp (o_fom M) A k.

Lemma at_stamp_app : forall A B k, at_stamp (o_fom M) (A ++ B) k = at_stamp (o_fom M) A k ++ at_stamp (o_fom M) B k.
Proof. intros. unfold at_stamp. apply filter_app. Qed.

Lemma R_append_one : forall A d s f s', R A d s -> append_one M s f = Ok s' -> R (A ++ [f]) d s'.
Proof.
  intros A d s f s' (HI & Hd & HE) H.
  split; [eapply append_one_Inv; eauto|].
  split; [rewrite (append_one_done _ _ _ _ H); auto|].
  intros k Hk. rewrite at_stamp_app. unfold at_stamp at 2. simpl.
  unfold append_one in H. rewrite Hd in H.
  destruct (Z.leb_spec (o_fom M f) d); inversion H; subst; clear H; simpl.
  - rewrite HE by auto. destruct (Z.eqb_spec (o_fom M f) k); [lia|]. rewrite app_nil_r. auto.
  - rewrite entry_add, HE by auto. rewrite Z.eqb_sym.
    destruct (Z.eqb_spec (o_fom M f) k); auto. rewrite app_nil_r. auto.
Qed.

Lemma R_append : forall fs A d s s', R A d s -> append M s fs = Ok s' -> R (A ++ fs) d s'.
Proof.
  induction fs as [|f r IH]; simpl; intros A d s s' HR H.
  - inversion H; subst. rewrite app_nil_r. auto.
  - destruct (append_one M s f) eqn:E; [|congruence].
    change (f :: r) with ([f] ++ r). rewrite app_assoc. eapply IH; eauto.
    eapply R_append_one; eauto.
Qed.

Lemma R_get_key : forall A d s k s' o, R A d s -> peek C true s = Some k ->
  get_key M C s k = Ok (s', o) -> R A k s' /\ d < k /\ entry k (s_buf s) = at_stamp (o_fom M) A k.
Proof.
  intros A d s k s' o (HI & Hd & HE) P H.
  assert (G : get M C s = Ok (s', Some o)) by (unfold get; rewrite P, H; auto).
  destruct (get_key_WInv M C Hseg _ _ _ _ (i_weak _ _ HI) H) as (_ & Hd' & Hb & Hk).
  pose proof (i_newer _ _ HI _ _ Hd Hk) as Hlt.
  split; [|auto]. split; [eapply get_Inv; eauto|]. split; auto.
  intros x Hx. rewrite Hb, entry_remove by lia. apply HE. lia.
Qed.

Lemma R_init : forall fl, R [] fl (init C fl).
Proof.
  intro fl. split; [apply init_Inv; auto|]. split.
  - simpl. destruct (c_nseg C); [lia|reflexivity].
  - reflexivity.
Qed.

Lemma R_step : forall A d s o, R A d s -> app_or_get o ->
  exists s' out d', step M C s o = Ok (s', out) /\ R (A ++ appended [o]) d' s' /\
    d' = last_stamp (o_fom M) d out.
Proof.
  intros A d s o HR Ho. destruct o as [fs| | |]; simpl in Ho; try tauto.
  - destruct (append_total M fs s (i_weak _ _ (proj1 HR))) as [s' E].
    exists s', [], d. simpl. rewrite E. split; auto. split; auto.
    rewrite app_nil_r. eapply R_append; eauto.
  - simpl. rewrite app_nil_r. unfold get. destruct (peek C true s) as [k|] eqn:P.
    + destruct (peek_some _ _ _ _ P) as [Hk _].
      destruct (get_key_total M C s k Hk) as (s' & out & G). rewrite G.
      destruct (R_get_key _ _ _ _ _ _ HR P G) as [HR' _].
      exists s', [out], k. split; auto. split; auto.
      destruct (get_key_out M C Hfom _ _ _ _ (i_weak _ _ (proj1 HR)) G) as [Hne Hall].
      unfold last_stamp. simpl. destruct out as [|f r]; [congruence|]. symmetry. apply Hall. simpl; auto.
    + exists s, [], d. auto.
Qed.

Lemma last_stamp_app : forall d (o1 o2 : list (list F)), Forall (fun l => l <> []) o2 ->
  last_stamp (o_fom M) d (o1 ++ o2) = last_stamp (o_fom M) (last_stamp (o_fom M) d o1) o2.
Proof.
  intros d o1 o2 H. destruct o2 as [|x o2].
  - rewrite app_nil_r. reflexivity.
  - destruct (@exists_last _ (x :: o2)) as (l & y & E); [congruence|]. rewrite E in *.
    unfold last_stamp. rewrite app_assoc, !last_last.
    apply Forall_app in H. destruct H as [_ H]. inversion H; subst. destruct y; congruence.
Qed.

Lemma appended_cons : forall (o : @op F) os, appended (o :: os) = appended [o] ++ appended os.
Proof. intros [fs| | |] os; simpl; auto. rewrite app_nil_r; auto. Qed.

Lemma run_R : forall os A d s, R A d s -> Forall app_or_get os ->
  exists s' outs, run M C s os = Ok (s', outs) /\
    R (A ++ appended os) (last_stamp (o_fom M) d outs) s' /\ Forall (fun l => l <> []) outs.
Proof.
  induction os as [|o r IH]; intros A d s HR Ho.
  - exists s, []. simpl. rewrite app_nil_r. auto.
  - inversion Ho as [|? ? H1 H2]; subst.
    destruct (R_step _ _ _ _ HR H1) as (s1 & out & d1 & E & HR1 & Ed).
    destruct (IH _ _ _ HR1 H2) as (s2 & outs & E2 & HR2 & Hne).
    destruct (step_app_get M C Hseg Hfom s o (proj1 HR) H1) as (s1' & out' & E' & _ & Hout & _).
    rewrite E in E'. inversion E'; subst s1' out'.
    destruct HR as (_ & Hd & _). destruct HR1 as (_ & Hd1 & _).
    destruct (Hout _ _ Hd Hd1) as [_ Hall].
    exists s2, (out ++ outs). cbn [run]. rewrite E, E2. split; auto. split.
    + rewrite last_stamp_app by auto. rewrite <- Ed.
      rewrite appended_cons, app_assoc. auto.
    + apply Forall_app. split; auto. eapply Forall_impl; [|exact Hall]. simpl. tauto.
Qed.

(** Keys present = timestamps newer than the last emission. *)
Lemma R_keys : forall A d s, R A d s -> Permutation (keys (s_buf s)) (stamps_after (o_fom M) A d).
Proof.
  intros A d s (HI & Hd & HE). apply NoDup_Permutation.
  - apply w_nodup with (M := M). apply HI.
  - apply NoDup_nodup.
  - intro k. unfold stamps_after. rewrite nodup_In, in_map_iff. split.
    + intro Hk. pose proof (i_newer _ _ HI _ _ Hd Hk) as Hlt.
      destruct (lookup_key _ _ Hk) as [l L]. specialize (HE k Hlt). unfold entry in HE. rewrite L in HE.
      apply lookup_In in L. destruct (w_entry _ _ (i_weak _ _ HI) _ _ L) as [Hne Hall].
      destruct l as [|f l]; [congruence|]. exists f. split; [apply Hall; simpl; auto|].
      apply filter_In. assert (Hf : In f (f :: l)) by (simpl; auto). rewrite HE in Hf.
      unfold at_stamp in Hf. apply filter_In in Hf. destruct Hf as [Hf1 Hf2]. split; auto.
      apply Z.ltb_lt. apply Z.eqb_eq in Hf2. lia.
    + intros (f & <- & Hf). apply filter_In in Hf. destruct Hf as [Hf1 Hf2]. apply Z.ltb_lt in Hf2.
      specialize (HE _ Hf2). unfold entry in HE.
      assert (Hin : In f (at_stamp (o_fom M) A (o_fom M f))).
      { unfold at_stamp. apply filter_In. split; auto. apply Z.eqb_refl. }
      destruct (in_dec Z.eq_dec (o_fom M f) (keys (s_buf s))) as [|Hn]; auto.
      rewrite lookup_none in HE by auto. rewrite <- HE in Hin. destruct Hin.
Qed.

(** What get() returns, in terms of the appended frames. *)
Lemma get_refines : forall A d s, R A d s ->
  if Nat.ltb (length (stamps_after (o_fom M) A d)) (c_nseg C) then get M C s = Ok (s, None)
  else exists k s' out, In k (stamps_after (o_fom M) A d) /\
    (forall x, In x (stamps_after (o_fom M) A d) -> k <= x) /\
    get M C s = Ok (s', Some out) /\ R A k s' /\
    get_key M C s k = Ok (s', out) /\ lookup k (s_buf s) = Some (at_stamp (o_fom M) A k).
Proof.
  intros A d s HR. pose proof (R_keys _ _ _ HR) as HP.
  pose proof (Permutation_length HP) as HL. unfold keys in HL. rewrite map_length in HL. rewrite <- HL.
  destruct (Nat.ltb_spec (length (s_buf s)) (c_nseg C)) as [Hlt|Hge].
  - apply get_none; auto.
  - assert (Hf : filled C s = true).
    { unfold filled. destruct (Nat.ltb_spec (length (s_buf s)) (c_nseg C)); auto. lia. }
    destruct (peek C true s) as [k|] eqn:P.
    + destruct (peek_some _ _ _ _ P) as [Hk Hm].
      destruct (get_key_total M C s k Hk) as (s' & out & G).
      destruct (R_get_key _ _ _ _ _ _ HR P G) as (HR' & Hlt & HE).
      exists k, s', out. split; [eapply Permutation_in; eauto|]. split.
      { intros x Hx. apply Hm. eapply Permutation_in; [symmetry; exact HP|exact Hx]. }
      split; [unfold get; rewrite P, G; auto|]. split; auto. split; auto.
      destruct (lookup_key _ _ Hk) as [l L]. unfold entry in HE. rewrite L in *. congruence.
    + unfold peek in P. rewrite Hf in P. simpl in P. apply min_key_none in P.
      unfold keys in P. apply map_eq_nil in P. rewrite P in Hge. simpl in Hge. lia.
Qed.

End Refine.

Section Conserve.
Context {F : Type} (M : ops F) (C : cfg).

(** Output of get_key on an entry with distinct expected identifiers. *)
Lemma NoDup_app_intro : forall (A : Type) (l1 l2 : list A), NoDup l1 -> NoDup l2 ->
  (forall x, In x l1 -> ~ In x l2) -> NoDup (l1 ++ l2).
Proof.
  induction l1 as [|x r IH]; simpl; intros l2 H1 H2 H; auto.
  inversion H1; subst. constructor.
  - rewrite in_app_iff. intros [Hi|Hi]; [auto|]. apply (H x); auto.
  - apply IH; auto.
Qed.

Lemma missing_spec : forall l, NoDup (map (o_mid M) l) -> incl (map (o_mid M) l) (c_possible C) ->
  NoDup (c_possible C) ->
  Permutation (map (o_mid M) l ++ missing_list M C l) (c_possible C).
Proof.
  intros l H1 H2 H3. unfold missing_list. apply NoDup_Permutation; auto.
  - apply NoDup_app_intro; auto.
    + apply NoDup_filter; auto.
    + intros x Hx Hf. apply filter_In in Hf. destruct Hf as [_ Hf].
      apply negb_true_iff in Hf. apply id_in_false in Hf. auto.
  - intro x. rewrite in_app_iff, filter_In, negb_true_iff, id_in_false. split.
    + intros [Hx|[Hx _]]; auto.
    + intro Hx. destruct (in_dec (list_eq_dec Z.eq_dec) x (map (o_mid M) l)); auto.
Qed.

Lemma filter_all : forall (A : Type) (p : A -> bool) l, (forall x, In x l -> p x = true) -> filter p l = l.
Proof.
  induction l as [|x r IH]; simpl; intro H; auto.
  rewrite (H x) by auto. f_equal. auto.
Qed.

Lemma filter_none : forall (A : Type) (p : A -> bool) l, (forall x, In x l -> p x = false) -> filter p l = [].
Proof.
  induction l as [|x r IH]; simpl; intro H; auto.
  rewrite (H x) by auto. auto.
Qed.

Lemma filter_perm : forall (A : Type) (p : A -> bool) l l', Permutation l l' -> Permutation (filter p l) (filter p l').
Proof.
  induction 1; simpl; auto.
  - destruct (p x); auto.
  - destruct (p x), (p y); auto. apply perm_swap.
  - etransitivity; eauto.
Qed.

(** Conservation in one get. *)
Context (Hinv : forall t i, o_valid M (o_fill M t i) = false).

Definition buffered (s : st F) : list F := concat (map snd (s_buf s)).
Definition AllValid (s : st F) : Prop := forall f, In f (buffered s) -> o_valid M f = true.

Lemma get_key_conserves : forall s k s' o, AllValid s -> get_key M C s k = Ok (s', o) ->
  exists dr, s_dropped s' = s_dropped s + Z.of_nat (length dr) /\
    Permutation (buffered s) (dr ++ buffered s' ++ filter (o_valid M) o) /\
    AllValid s' /\ s_full s' + s_partial s' = s_full s + s_partial s + 1.
Proof.
  intros s k s' o HV H.
  destruct (get_key_cases M C _ _ _ _ H) as (l & out & fu & pa & dr & mi & L & -> & -> & HC).
  pose proof (remove_key_perm _ _ _ L) as HP.
  assert (HVl : forall f, In f l -> o_valid M f = true).
  { intros f Hf. apply HV. unfold buffered. eapply Permutation_in; [symmetry; exact HP|].
    apply in_app_iff; auto. }
  assert (HV' : forall f, In f (concat (map snd (remove_key k (s_buf s)))) -> o_valid M f = true).
  { intros f Hf. apply HV. unfold buffered. eapply Permutation_in; [symmetry; exact HP|].
    apply in_app_iff; auto. }
  assert (Hms : Permutation (filter (o_valid M) (maybe_sort M C out)) (filter (o_valid M) out)).
  { apply filter_perm. apply maybe_sort_perm. }
  unfold buffered, AllValid. simpl.
  destruct HC as [(_ & -> & -> & -> & -> & ->)|[(_ & -> & -> & -> & -> & ->)|(_ & d & D & -> & -> & -> & ->)]].
  - exists []. simpl. split; [lia|]. split; [|split; [exact HV'|lia]].
    rewrite HP, Hms, filter_all by auto. apply Permutation_app_comm.
  - exists []. simpl. split; [lia|]. split; [|split; [exact HV'|lia]].
    rewrite HP, Hms, filter_app, filter_all by auto.
    rewrite (filter_none _ _ (match l with [] => [] | t :: _ => _ end)).
    + rewrite app_nil_r. apply Permutation_app_comm.
    + intros f Hf. destruct l as [|t r]; [destruct Hf|]. apply in_map_iff in Hf.
      destruct Hf as (i & <- & _). apply Hinv.
  - destruct (dedupe_spec M _ _ _ _ D) as ((dr' & -> & HPd) & Hin & _).
    exists dr'. split; [lia|]. split; [|split; [exact HV'|lia]].
    rewrite HP, Hms, (filter_all _ _ out) by auto. rewrite HPd, <- app_assoc.
    apply Permutation_app_head. apply Permutation_app_comm.
Qed.

Lemma append_one_conserves : forall s f s', AllValid s -> o_valid M f = true -> append_one M s f = Ok s' ->
  exists dr, s_dropped s' = s_dropped s + Z.of_nat (length dr) /\
    Permutation (f :: buffered s) (dr ++ buffered s') /\ AllValid s' /\
    s_full s' + s_partial s' = s_full s + s_partial s.
Proof.
  intros s f s' HV Hf H. unfold append_one in H.
  destruct (deque_last (s_done s)) as [d|]; [|congruence].
  destruct (_ <=? _); inversion H; subst; clear H; simpl.
  - exists [f]. simpl. auto.
  - exists []. simpl. split; [lia|]. unfold buffered, AllValid, buffered. simpl.
    pose proof (add_frame_perm (o_fom M f) f (s_buf s)) as HP. split; [symmetry; auto|]. split; auto.
    intros g Hg. eapply Permutation_in in Hg; [|exact HP]. destruct Hg as [<-|Hg]; auto.
Qed.

Lemma append_conserves : forall fs s s', AllValid s -> Forall (fun f => o_valid M f = true) fs -> append M s fs = Ok s' ->
  exists dr, s_dropped s' = s_dropped s + Z.of_nat (length dr) /\
    Permutation (fs ++ buffered s) (dr ++ buffered s') /\ AllValid s' /\
    s_full s' + s_partial s' = s_full s + s_partial s.
Proof.
  induction fs as [|f r IH]; simpl; intros s s' HV Hf H.
  - inversion H; subst. exists []. simpl. split; [lia|]. auto.
  - inversion Hf as [|? ? Hf1 Hf2]; subst.
    destruct (append_one M s f) as [s1|] eqn:E; [|congruence].
    destruct (append_one_conserves _ _ _ HV Hf1 E) as (d1 & Hd1 & HP1 & HV1 & Hc1).
    destruct (IH _ _ HV1 Hf2 H) as (d2 & Hd2 & HP2 & HV2 & Hc2).
    exists (d1 ++ d2). rewrite app_length. split; [lia|]. split; [|split; [auto|lia]].
    rewrite <- app_assoc, <- HP2, Permutation_middle, HP1.
    rewrite !app_assoc. apply Permutation_app_tail. apply Permutation_app_comm.
Qed.

Lemma flush_keys_conserves : forall ks s s' outs, AllValid s -> flush_keys M C s ks = Ok (s', outs) ->
  exists dr, s_dropped s' = s_dropped s + Z.of_nat (length dr) /\
    Permutation (buffered s) (dr ++ buffered s' ++ filter (o_valid M) (concat outs)) /\ AllValid s' /\
    s_full s' + s_partial s' = s_full s + s_partial s + Z.of_nat (length outs).
Proof.
  induction ks as [|k r IH]; simpl; intros s s' outs HV H.
  - inversion H; subst. exists []. simpl. rewrite app_nil_r. split; [lia|]. split; auto. split; [auto|lia].
  - destruct (get_key M C s k) as [[s1 o]|] eqn:G; [|congruence].
    destruct (flush_keys M C s1 r) as [[s2 os]|] eqn:E; [|congruence].
    inversion H; subst; clear H.
    destruct (get_key_conserves _ _ _ _ HV G) as (d1 & Hd1 & HP1 & HV1 & Hc1).
    destruct (IH _ _ _ HV1 E) as (d2 & Hd2 & HP2 & HV2 & Hc2).
    exists (d1 ++ d2). rewrite app_length. split; [lia|].
    split; [|split; [auto|simpl length; lia]].
    rewrite HP1, HP2. simpl. rewrite filter_app. rewrite <- !app_assoc.
    do 3 apply Permutation_app_head. apply Permutation_app_comm.
Qed.

Lemma step_conserves : forall s o s' out, AllValid s -> no_reset o ->
  Forall (fun f => o_valid M f = true) (appended [o]) -> step M C s o = Ok (s', out) ->
  exists dr, s_dropped s' = s_dropped s + Z.of_nat (length dr) /\
    Permutation (appended [o] ++ buffered s) (dr ++ buffered s' ++ filter (o_valid M) (concat out)) /\ AllValid s' /\
    s_full s' + s_partial s' = s_full s + s_partial s + Z.of_nat (length out).
Proof.
  intros s o s' out HV Ho Hf H. destruct o as [fs| | |]; simpl in *; try tauto.
  - destruct (append M s fs) as [s1|] eqn:E; [|congruence]. inversion H; subst.
    rewrite app_nil_r in Hf.
    destruct (append_conserves _ _ _ HV Hf E) as (d1 & Hd1 & HP1 & HV1 & Hc1).
    exists d1. simpl. rewrite !app_nil_r. split; auto. split; auto. split; [auto|lia].
  - unfold get in H. destruct (peek C true s) as [k|].
    + destruct (get_key M C s k) as [[s1 o]|] eqn:G; [|congruence]. inversion H; subst; clear H.
      destruct (get_key_conserves _ _ _ _ HV G) as (d1 & Hd1 & HP1 & HV1 & Hc1).
      exists d1. simpl. rewrite app_nil_r. auto.
    + inversion H; subst. exists []. simpl. rewrite app_nil_r. split; [lia|]. split; auto. split; [auto|lia].
  - eapply flush_keys_conserves; eauto.
Qed.

Lemma run_conserves : forall os s s' outs, AllValid s -> Forall no_reset os ->
  Forall (fun f => o_valid M f = true) (appended os) -> run M C s os = Ok (s', outs) ->
  exists dr, s_dropped s' = s_dropped s + Z.of_nat (length dr) /\
    Permutation (appended os ++ buffered s) (dr ++ buffered s' ++ filter (o_valid M) (concat outs)) /\ AllValid s' /\
    s_full s' + s_partial s' = s_full s + s_partial s + Z.of_nat (length outs).
Proof.
  induction os as [|o r IH]; intros s s' outs HV Ho Hf H.
  - simpl in H. inversion H; subst. exists []. simpl. rewrite app_nil_r. split; [lia|]. split; auto. split; [auto|lia].
  - rewrite appended_cons in *. apply Forall_app in Hf. destruct Hf as [Hf1 Hf2].
    inversion Ho as [|? ? Ho1 Ho2]; subst. simpl in H.
    destruct (step M C s o) as [[s1 out]|] eqn:E; [|congruence].
    destruct (run M C s1 r) as [[s2 outs2]|] eqn:E2; [|congruence].
    inversion H; subst; clear H.
    destruct (step_conserves _ _ _ _ HV Ho1 Hf1 E) as (d1 & Hd1 & HP1 & HV1 & Hc1).
    destruct (IH _ _ _ HV1 Ho2 Hf2 E2) as (d2 & Hd2 & HP2 & HV2 & Hc2).
    exists (d1 ++ d2). rewrite !app_length. split; [lia|].
    split; [|split; [auto|lia]].
    rewrite concat_app, filter_app.
    transitivity (appended r ++ (appended [o] ++ buffered s)).
    { rewrite !app_assoc. apply Permutation_app_tail. apply Permutation_app_comm. }
    rewrite HP1.
    transitivity (d1 ++ (appended r ++ buffered s1) ++ filter (o_valid M) (concat out)).
    { rewrite !app_assoc. apply Permutation_app_tail. apply Permutation_app_tail. apply Permutation_app_comm. }
    rewrite HP2. rewrite <- !app_assoc. do 3 apply Permutation_app_head. apply Permutation_app_comm.
Qed.
End Conserve.
