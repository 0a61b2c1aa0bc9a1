(** Proofs about finding point sources. *)
From Coq Require Import List ZArith Bool QArith Lia Lqa FinFun.
From Verif Require Import M_Py M_Num P_Num M_Find S_Find.
Import ListNotations.
Open Scope Z_scope.

Lemma upto_in : forall n i, In i (upto n) <-> 0 <= i < n.
Proof.
  intros n i. unfold upto. rewrite in_map_iff. split.
  - intros (k & <- & K). apply in_seq in K. lia.
  - intro H. exists (Z.to_nat i). split; [lia|]. apply in_seq. lia.
Qed.
Lemma row_in : forall h a, 0 <= h -> (In a (row h) <-> Z.abs a <= h).
Proof.
  intros h a H. unfold row. rewrite in_map_iff. split.
  - intros (k & <- & K). apply upto_in in K. lia.
  - intro A. exists (a + h). split; [lia|]. apply upto_in. lia.
Qed.
Lemma offsets_in : forall h r2 a b, 0 <= h -> (In (a, b) (offsets h r2) <-> (a, b) <> (0, 0) /\ Z.abs a <= h /\ Z.abs b <= h /\ (inject_Z (a * a + b * b) <= r2)%Q).
Proof.
  intros h r2 a b H. unfold offsets. rewrite filter_In, in_prod_iff, !row_in by exact H. rewrite andb_true_iff, Qle_bool_iff, negb_true_iff.
  assert (E : (a =? 0) && (b =? 0) = false <-> (a, b) <> (0, 0)).
  { destruct (Z.eqb_spec a 0) as [->|Na]; destruct (Z.eqb_spec b 0) as [->|Nb]; cbn [andb]; split; intro X; try discriminate; try reflexivity; try congruence. }
  rewrite E. tauto.
Qed.
Lemma nodup_app : forall A (l r : list A), NoDup l -> NoDup r -> (forall x, In x l -> ~ In x r) -> NoDup (l ++ r).
Proof.
  intros A l r H. induction H as [|x l N H IH]; intros Hr D; [exact Hr|]. cbn [app]. constructor; [|apply IH; [exact Hr|intros y Y; apply D; right; exact Y]].
  intro I. apply in_app_iff in I. destruct I as [I|I]; [tauto|]. exact (D x (or_introl eq_refl) I).
Qed.
Lemma nodup_prod : forall A B (l : list A) (l' : list B), NoDup l -> NoDup l' -> NoDup (list_prod l l').
Proof.
  intros A B l l' H H'. induction H as [|x l N H IH]; [constructor|]. cbn [list_prod]. apply nodup_app; [|exact IH|].
  - apply Injective_map_NoDup; [intros y z E; congruence|exact H'].
  - intros [u v] P Q. apply in_map_iff in P. destruct P as (y & E & _). apply in_prod_iff in Q. destruct Q as [Q _]. congruence.
Qed.
Lemma nodup_upto : forall n, NoDup (upto n).
Proof. intro n. unfold upto. apply Injective_map_NoDup; [intros a b E; lia|apply seq_NoDup]. Qed.
Lemma qmin_le : forall l d, (qmin l d <= d)%Q /\ forall x, In x l -> (qmin l d <= x)%Q.
Proof.
  unfold qmin. intro l. induction l as [|y l IH]; intro d; cbn [fold_left]; [split; [lra|contradiction]|]. destruct (Qle_bool d y) eqn:E.
  - apply Qle_bool_iff in E. destruct (IH d) as [A B]. split; [exact A|]. intros x [<-|I]; [lra|apply B; exact I].
  - apply Qle_bool_f in E. destruct (IH y) as [A B]. split; [lra|]. intros x [<-|I]; [exact A|apply B; exact I].
Qed.
Lemma inner_iff : forall R C h i j, inner R C h (i, j) = true <-> inside R C h i j.
Proof. intros R C h i j. unfold inner, inside. rewrite !andb_true_iff, !Z.leb_le, !Z.ltb_lt. tauto. Qed.
Lemma pixel_in : forall R C i j, In (i, j) (pixels R C) <-> 0 <= i < R /\ 0 <= j < C.
Proof. intros R C i j. unfold pixels. rewrite in_prod_iff, !upto_in. tauto. Qed.
Section Detect.
  Variable R C h : Z.
  Variable r2 : Q.
  Variable conv : Z -> Z -> Q.
  Hypothesis Hh : 0 <= h.
  Lemma min_some : forall m, min_conv R C h conv = Ok m -> forall i j, inside R C h i j -> (m <= conv i j)%Q.
  Proof.
    intros m H i j I. unfold min_conv in H. assert (P : In (conv i j) (map (at_pixel conv) (filter (inner R C h) (pixels R C)))).
    { apply in_map_iff. exists (i, j). split; [reflexivity|]. apply filter_In. split; [apply pixel_in; unfold inside in I; lia|apply inner_iff; exact I]. }
    destruct (map _ _) as [|x r]; [contradiction|]. injection H as <-. destruct (qmin_le r x) as [A B]. destruct P as [->|P]; [exact A|apply B; exact P].
  Qed.
  Lemma look_near : forall m i j a b, inside R C h i j -> Z.abs a <= h -> Z.abs b <= h -> look R C h conv m (i + a) (j + b) = Some (cleaned R C h conv m (i + a, j + b)).
  Proof.
    intros m i j a b I A B. unfold look, pyidx. unfold inside in I.
    destruct (Z.leb_spec 0 (i + a)); [|lia]. destruct (Z.ltb_spec (i + a) R); [|lia]. destruct (Z.leb_spec 0 (j + b)); [|lia]. destruct (Z.ltb_spec (j + b) C); [|lia]. reflexivity.
  Qed.
  Lemma passes_spec : forall m os l, (forall i j, In (i, j) l -> inside R C h i j) -> (forall a b, In (a, b) os -> Z.abs a <= h /\ Z.abs b <= h) ->
    exists l', passes R C h conv m os l = Ok l' /\ (NoDup l -> NoDup l') /\
      forall i j, In (i, j) l' <-> In (i, j) l /\ forall a b, In (a, b) os -> (cleaned R C h conv m (i + a, j + b)%Z <= cleaned R C h conv m (i, j))%Q.
  Proof.
    intros m os. induction os as [|[a b] os IH]; intros l L O; cbn [passes].
    - exists l. split; [reflexivity|]. split; [auto|]. intros i j. split; [intro I; split; [exact I|contradiction]|tauto].
    - destruct (O a b (or_introl eq_refl)) as [A B]. unfold pass. cbn [fst snd].
      assert (E : existsb (fun p => match look R C h conv m (fst p + a) (snd p + b) with None => true | _ => false end) l = false).
      { apply not_true_is_false. intro X. apply existsb_exists in X. destruct X as ([i j] & I & X). cbn [fst snd] in X. rewrite look_near in X by (auto; apply L; exact I). discriminate. }
      rewrite E. cbn [bind]. set (l1 := filter _ l). assert (L1 : forall i j, In (i, j) l1 <-> In (i, j) l /\ (cleaned R C h conv m (i + a, j + b)%Z <= cleaned R C h conv m (i, j))%Q).
      { intros i j. unfold l1. rewrite filter_In. cbn [fst snd]. split; intros [I X]; (split; [exact I|]); rewrite look_near in * by (auto; apply L; exact I); apply Qle_bool_iff; exact X. }
      destruct (IH l1) as (l' & P & N & S); [intros i j I; apply L; apply L1; exact I|intros a' b' I; apply O; right; exact I|].
      exists l'. split; [exact P|]. split; [intro ND; apply N; apply NoDup_filter; exact ND|]. intros i j. rewrite S, L1. split.
      + intros ((I & X) & Y). split; [exact I|]. intros a' b' [E'|I']; [injection E' as <- <-; exact X|apply Y; exact I'].
      + intros (I & Y). split; [split; [exact I|apply Y; left; reflexivity]|]. intros a' b' I'. apply Y. right. exact I'.
  Qed.
  Lemma detect_spec : forall m thr, min_conv R C h conv = Ok m -> (m < thr)%Q -> exists l, detect R C h r2 conv thr = Ok l /\ NoDup l /\ forall i j, In (i, j) l <-> peak R C h r2 conv thr i j.
  Proof.
    intros m thr M T. unfold detect. rewrite M. cbn [bind]. set (l0 := filter _ (pixels R C)).
    assert (L0 : forall i j, In (i, j) l0 <-> inside R C h i j /\ (thr <= conv i j)%Q).
    { intros i j. unfold l0. rewrite filter_In, Qle_bool_iff, pixel_in. unfold cleaned. destruct (inner R C h (i, j)) eqn:E.
      - apply inner_iff in E. unfold at_pixel. cbn [fst snd]. unfold inside in *. split; [intros [_ X]; split; [exact E|exact X]|intros [X Y]; split; [lia|exact Y]].
      - split; [intros [_ X]; lra|]. intros [X _]. apply inner_iff in X. congruence. }
    destruct (passes_spec m (offsets h r2) l0) as (l & P & N & S).
    - intros i j I. apply L0. exact I.
    - intros a b I. apply offsets_in in I; [tauto|exact Hh].
    - exists l. split; [exact P|]. split; [apply N; apply NoDup_filter; apply nodup_prod; apply nodup_upto|]. intros i j. rewrite S, L0. unfold peak. split.
      + intros ((I & X) & Y). split; [exact I|]. split; [exact X|]. intros i' j' I' (D & A & B & Q1). specialize (Y (i' - i) (j' - j)).
        replace (i + (i' - i)) with i' in Y by lia. replace (j + (j' - j)) with j' in Y by lia. unfold cleaned in Y. rewrite (proj2 (inner_iff _ _ _ i' j') I'), (proj2 (inner_iff _ _ _ i j) I) in Y. apply Y. apply offsets_in; [exact Hh|].
        split; [intro E; injection E as E1 E2; apply D; f_equal; lia|]. auto.
      + intros (I & X & Y). split; [auto|]. intros a b O. apply offsets_in in O; [|exact Hh]. destruct O as (D & A & B & Q1). unfold cleaned at 2. rewrite (proj2 (inner_iff _ _ _ i j) I). unfold cleaned. destruct (inner R C h (i + a, j + b)) eqn:E.
        * apply inner_iff in E. apply (Y (i + a) (j + b) E). unfold near. replace (i + a - i) with a by lia. replace (j + b - j) with b by lia. split; [intro Z0; injection Z0 as Z1 Z2; apply D; f_equal; lia|]. auto.
        * unfold at_pixel. cbn [fst snd]. lra.
  Qed.
  (** All pixels alike and a pixel of the last row among those compared. *)
  Lemma flat_raises : forall m os l, (forall i j, In (i, j) l -> cleaned R C h conv m (i, j) = m) -> (forall i j, 0 <= i < R -> 0 <= j < C -> cleaned R C h conv m (i, j) = m) ->
    (exists i j a b, In (i, j) l /\ In (a, b) os /\ R <= i + a) -> passes R C h conv m os l = Raise IndexError.
  Proof.
    intros m os. induction os as [|[a b] os IH]; intros l L F (i & j & a' & b' & I & O & G); [contradiction|]. cbn [passes]. unfold pass. cbn [fst snd].
    destruct (existsb _ l) eqn:E; [reflexivity|]. cbn [bind]. assert (K : forall i j, In (i, j) l -> look R C h conv m (i + a) (j + b) = Some m).
    { intros x y X. destruct (look R C h conv m (x + a) (y + b)) as [v|] eqn:Lk.
      - unfold look in Lk. destruct (pyidx R (x + a)) as [x'|] eqn:E1; [|discriminate]. destruct (pyidx C (y + b)) as [y'|] eqn:E2; [|discriminate]. injection Lk as <-. rewrite F; [reflexivity| |].
        + unfold pyidx in E1. destruct (Z.leb_spec 0 (x + a)); destruct (Z.ltb_spec (x + a) R); destruct (Z.leb_spec (- R) (x + a)); destruct (Z.ltb_spec (x + a) 0); cbn [andb] in E1; try discriminate; injection E1 as <-; lia.
        + unfold pyidx in E2. destruct (Z.leb_spec 0 (y + b)); destruct (Z.ltb_spec (y + b) C); destruct (Z.leb_spec (- C) (y + b)); destruct (Z.ltb_spec (y + b) 0); cbn [andb] in E2; try discriminate; injection E2 as <-; lia.
      - exfalso. assert (T : existsb (fun p => match look R C h conv m (fst p + a) (snd p + b) with None => true | _ => false end) l = true) by (apply existsb_exists; exists (x, y); split; [exact X|]; cbn [fst snd]; rewrite Lk; reflexivity). congruence. }
    assert (Fl : filter (fun p => match look R C h conv m (fst p + a) (snd p + b) with Some v => Qle_bool v (cleaned R C h conv m p) | None => false end) l = l).
    { clear -K L. induction l as [|[x y] l IH]; [reflexivity|]. cbn [filter fst snd]. rewrite (K x y (or_introl eq_refl)), (L x y (or_introl eq_refl)). replace (Qle_bool m m) with true by (symmetry; apply Qle_bool_iff; lra). f_equal. apply IH; intros; [apply L|apply K]; right; assumption. }
    rewrite Fl. destruct O as [O|O].
    - injection O as -> ->. exfalso. specialize (K i j I). unfold look, pyidx in K. destruct (Z.ltb_spec (i + a') R); [lia|]. rewrite andb_false_r in K. destruct (Z.ltb_spec (i + a') 0); [|rewrite andb_false_r in K; discriminate].
      assert (R <= 0 \/ 0 < R) as [|] by lia; [|lia]. destruct (Z.leb_spec (- R) (i + a')); cbn [andb] in K; [lia|discriminate].
    - apply IH; [exact L|exact F|]. exists i, j, a', b'. auto.
  Qed.
End Detect.
Lemma sum_row_gen : forall n s h f, qsum (map f (map (fun k => k - h) (map Z.of_nat (seq s n)))) = sum_from (Z.of_nat s - h) n f.
Proof.
  induction n as [|n IH]; intros s h f; [reflexivity|]. cbn [seq map qsum fold_right sum_from]. f_equal. fold (qsum (map f (map (fun k => k - h) (map Z.of_nat (seq (S s) n))))). rewrite IH. f_equal. lia.
Qed.
Lemma sum_row : forall h f, qsum (map f (row h)) = sum_from (- h) (Z.to_nat (2 * h + 1)) f.
Proof. intros h f. unfold row, upto. rewrite sum_row_gen. f_equal. Qed.
Lemma sum_ext : forall n a f g, (forall x, f x == g x)%Q -> (sum_from a n f == sum_from a n g)%Q.
Proof. induction n as [|n IH]; intros a f g E; cbn [sum_from]; [reflexivity|]. rewrite (E a), (IH (a + 1) f g E). reflexivity. Qed.
Lemma over_box_sum : forall h image i j f, (over_box h image (i, j) f == box_sum h (fun a b => f a b (image (i + a)%Z (j + b)%Z)))%Q.
Proof. intros h image i j f. unfold over_box, box_sum. rewrite sum_row. cbn [fst snd]. apply sum_ext. intro a. rewrite sum_row. reflexivity. Qed.
Lemma qsum_nil : qsum [] = 0%Q.
Proof. reflexivity. Qed.
Lemma qsum_cons : forall x l, qsum (x :: l) = (x + qsum l)%Q.
Proof. reflexivity. Qed.
Lemma qsum_app : forall l r, (qsum (l ++ r) == qsum l + qsum r)%Q.
Proof. induction l as [|x l IH]; intro r; cbn [app]; [rewrite qsum_nil; ring|]. rewrite !qsum_cons, IH. ring. Qed.
Lemma qsum_filter : forall (f : Z * Z -> bool) g l, (qsum (map g (filter f l)) == qsum (map (fun p => if f p then g p else 0) l))%Q.
Proof.
  intros f g l. induction l as [|p l IH]; [reflexivity|]. cbn [filter map]. rewrite qsum_cons, <- IH.
  destruct (f p); cbn [map]; [rewrite qsum_cons; reflexivity|ring].
Qed.
Lemma qsum_prod : forall (g : Z * Z -> Q) l l', (qsum (map g (list_prod l l')) == qsum (map (fun a => qsum (map (fun b => g (a, b)) l')) l))%Q.
Proof.
  intros g l l'. induction l as [|a l IH]; cbn [list_prod map]; [reflexivity|]. rewrite map_app, qsum_app, map_map, IH, qsum_cons. reflexivity.
Qed.
Lemma offsets_sum : forall h r2 g, (qsum (map g (offsets h r2)) == box_sum h (fun a b => if in_area r2 a b then g (a, b) else 0))%Q.
Proof.
  intros h r2 g. unfold offsets. rewrite qsum_filter, qsum_prod. unfold box_sum. rewrite sum_row. apply sum_ext. intro a. rewrite sum_row. reflexivity.
Qed.
Lemma length_sum : forall A (l : list A), (inject_Z (Z.of_nat (length l)) == qsum (map (fun _ => 1) l))%Q.
Proof. intros A l. induction l as [|x l IH]; [reflexivity|]. cbn [length map]. rewrite qsum_cons, <- IH, Nat2Z.inj_succ. unfold Z.succ. rewrite inject_Z_plus. ring. Qed.
Lemma sharp_eq : forall h r2 image i j, (sharpness h r2 image (i, j) == sharp_of h r2 image i j)%Q.
Proof.
  intros. unfold sharpness, sharp_of. cbn [fst snd]. rewrite length_sum, !offsets_sum. cbn [fst snd]. reflexivity.
Qed.
Lemma dx_eq : forall h image c1 i j, (dx h image c1 (i, j) == along_x h image c1 i j)%Q.
Proof. intros. unfold dx. apply over_box_sum. Qed.
Lemma dy_eq : forall h image c1 i j, (dy h image c1 (i, j) == along_y h image c1 i j)%Q.
Proof. intros. unfold dy. apply over_box_sum. Qed.
Lemma round_eq : forall h image c1 i j, (roundness h image c1 (i, j) == round_of h image c1 i j)%Q.
Proof. intros. unfold roundness, round_of. rewrite !dx_eq, !dy_eq. reflexivity. Qed.
Lemma qlt_f : forall a b, qlt a b = false <-> (b <= a)%Q.
Proof. intros a b. unfold qlt. rewrite negb_false_iff. apply Qle_bool_iff. Qed.
Lemma qle_f : forall a b, Qle_bool a b = false <-> (b < a)%Q.
Proof. intros a b. split; [apply Qle_bool_f|]. intro H. apply not_true_is_false. intro E. apply Qle_bool_iff in E. lra. Qed.
Lemma kept_iff : forall h r2 image c1 sl sh rl rh i j, kept h r2 image c1 sl sh rl rh (i, j) = true <-> acceptable h r2 image c1 sl sh rl rh i j.
Proof.
  intros. unfold kept, acceptable. rewrite andb_true_iff, !negb_true_iff, !orb_false_iff, !qlt_f, !qle_f, sharp_eq, dx_eq, dy_eq, round_eq. tauto.
Qed.
Definition stat (h : Z) (r2 : Q) (image : Z -> Z -> Q) (c1 : Z -> Q) (p : Z * Z) : source :=
  mkSource (xcen h image p) (ycen h image p) (image (fst p) (snd p)) (sharpness h r2 image p) (roundness h image c1 p).
Lemma collect_map : forall h r2 image c1 sl sh rl rh l, collect h r2 image c1 sl sh rl rh l = map (stat h r2 image c1) (filter (kept h r2 image c1 sl sh rl rh) l).
Proof. intros. induction l as [|p l IH]; [reflexivity|]. cbn [collect filter]. destruct (kept _ _ _ _ _ _ _ _ p); cbn [map]; rewrite IH; reflexivity. Qed.
Lemma min_exists : forall R C h conv i j, 0 <= h -> inside R C h i j -> exists m, min_conv R C h conv = Ok m.
Proof.
  intros R C h conv i j Hh I. unfold min_conv. assert (P : In (conv i j) (map (at_pixel conv) (filter (inner R C h) (pixels R C)))).
  { apply in_map_iff. exists (i, j). split; [reflexivity|]. apply filter_In. split; [unfold pixels; apply in_prod_iff; rewrite !upto_in; unfold inside in I; lia|apply inner_iff; exact I]. }
  destruct (map _ _) as [|x r]; [contradiction|]. eexists. reflexivity.
Qed.
Lemma find_spec : forall R C h r2 conv image c1 thr sl sh rl rh, 0 <= h -> (exists i j, inside R C h i j /\ (conv i j < thr)%Q) ->
  exists l, NoDup l /\ (forall i j, In (i, j) l <-> peak R C h r2 conv thr i j /\ acceptable h r2 image c1 sl sh rl rh i j) /\
    find_sources R C h r2 conv image c1 thr sl sh rl rh = Ok (map (stat h r2 image c1) l).
Proof.
  intros R C h r2 conv image c1 thr sl sh rl rh Hh (i & j & I & T). destruct (min_exists R C h conv i j Hh I) as (m & M).
  pose proof (min_some R C h conv Hh m M i j I) as Le. destruct (detect_spec R C h r2 conv Hh m thr M) as (l & D & N & S); [lra|].
  exists (filter (kept h r2 image c1 sl sh rl rh) l). split; [apply NoDup_filter; exact N|]. split.
  - intros x y. rewrite filter_In, S, kept_iff. tauto.
  - unfold find_sources. rewrite D. cbn [bind]. rewrite collect_map. reflexivity.
Qed.
Lemma forall2_map : forall A B (f : A -> B) (P : A -> B -> Prop) l, (forall x, P x (f x)) -> Forall2 P l (map f l).
Proof. intros A B f P l H. induction l; constructor; auto. Qed.
