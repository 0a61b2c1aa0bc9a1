(** Loops over memory, sums, and the transforms of the spectrometer. *)
From Coq Require Import List ZArith QArith Qcanon Bool Lia Permutation.
From Verif Require Import LibList M_Base P_Base M_Corr S_Corr.
Import ListNotations.
Open Scope Z_scope.

(** ** Ranges *)
Lemma counting_seq : forall n lo, counting lo n = map (fun k => lo + Z.of_nat k) (seq 0 n).
Proof.
  induction n as [|n IH]; intro lo; [reflexivity|]. cbn [counting seq map]. rewrite Z.add_0_r. f_equal.
  rewrite IH, <- seq_shift, map_map. apply map_ext. intro. lia.
Qed.
Lemma upto_range : forall lo hi, upto lo hi = range lo hi.
Proof. intros. unfold upto, range. apply counting_seq. Qed.
Lemma range_snoc : forall lo hi, lo <= hi -> range lo (hi + 1) = range lo hi ++ [hi].
Proof.
  intros lo hi H. unfold range. replace (Z.to_nat (hi + 1 - lo)) with (Datatypes.S (Z.to_nat (hi - lo))) by lia.
  rewrite seq_S, map_app. cbn [map]. f_equal. f_equal. lia.
Qed.
Lemma counting_app : forall a b lo, counting lo (a + b) = counting lo a ++ counting (lo + Z.of_nat a) b.
Proof.
  induction a as [|a IH]; intros b lo; [cbn; f_equal; lia|]. cbn [counting Nat.add app]. f_equal. rewrite IH. do 2 f_equal. lia.
Qed.
Lemma range_app : forall lo mid hi, lo <= mid <= hi -> range lo hi = range lo mid ++ range mid hi.
Proof.
  intros lo mid hi H. rewrite <- !upto_range. unfold upto. replace (Z.to_nat (hi - lo)) with (Z.to_nat (mid - lo) + Z.to_nat (hi - mid))%nat by lia.
  rewrite counting_app. do 2 f_equal. lia.
Qed.
Lemma range_shift : forall lo hi a, range (lo + a) (hi + a) = map (fun k => k + a) (range lo hi).
Proof. intros. unfold range. replace (hi + a - (lo + a)) with (hi - lo) by lia. rewrite map_map. apply map_ext. intro. lia. Qed.
Lemma range_NoDup : forall lo hi, NoDup (range lo hi).
Proof.
  intros. unfold range. apply FinFun.Injective_map_NoDup; [|apply seq_NoDup]. intros x y H. lia.
Qed.

(** ** Loops *)
Lemma loop_nil : forall S lo hi f (s : S), hi <= lo -> loop lo hi f s = s.
Proof. intros. unfold loop. rewrite range_nil by lia. reflexivity. Qed.
Lemma loop_snoc : forall S lo hi f (s : S), lo <= hi -> loop lo (hi + 1) f s = f hi (loop lo hi f s).
Proof. intros. unfold loop. rewrite range_snoc by lia. rewrite fold_left_app. reflexivity. Qed.
Lemma loop_ind : forall S (P : Z -> S -> Prop) lo hi f s, lo <= hi -> P lo s -> (forall k s, lo <= k < hi -> P k s -> P (k + 1) (f k s)) ->
  P hi (loop lo hi f s).
Proof.
  intros S P lo hi f s H H0 Hs.
  assert (G : forall n, (n <= Z.to_nat (hi - lo))%nat -> P (lo + Z.of_nat n) (loop lo (lo + Z.of_nat n) f s)).
  { induction n as [|n IH]; intro Hn.
    - rewrite loop_nil by lia. replace (lo + Z.of_nat 0) with lo by lia. exact H0.
    - replace (lo + Z.of_nat (Datatypes.S n)) with (lo + Z.of_nat n + 1) by lia. rewrite loop_snoc by lia. apply Hs; [lia|]. apply IH. lia. }
  specialize (G (Z.to_nat (hi - lo)) ltac:(lia)). replace (lo + Z.of_nat (Z.to_nat (hi - lo))) with hi in G by lia. exact G.
Qed.

(** Steps that touch different cells, each on its own only. *)
Section Separate.
Context {A : Type} (f : Z -> mem A -> mem A) (R : Z -> Z -> Prop).
Definition keeps_out (k : Z) := forall m x, ~ R k x -> f k m x = m x.
Definition reads_own (k : Z) := forall m m', (forall x, R k x -> m x = m' x) -> forall x, R k x -> f k m x = f k m' x.
Lemma separate_out : forall l m x, (forall k, In k l -> keeps_out k) -> (forall k, In k l -> ~ R k x) -> fold_left (fun s k => f k s) l m x = m x.
Proof.
  induction l as [|k l IH]; intros m x Hk Hx; [reflexivity|]. cbn [fold_left]. rewrite IH.
  - apply Hk; [left; reflexivity|]. apply Hx. left. reflexivity.
  - intros j Hj. apply Hk. right. exact Hj.
  - intros j Hj. apply Hx. right. exact Hj.
Qed.
Lemma separate_at : forall l m k x, NoDup l -> In k l -> R k x -> (forall k, In k l -> keeps_out k) -> (forall k, In k l -> reads_own k) ->
  (forall j k x, In j l -> In k l -> R j x -> R k x -> j = k) -> fold_left (fun s k => f k s) l m x = f k m x.
Proof.
  induction l as [|j l IH]; intros m k x Hn Hk Hx Ho Hr Hs; [destruct Hk|]. cbn [fold_left]. inversion Hn; subst.
  destruct Hk as [-> | Hk].
  - apply separate_out.
    + intros i Hi. apply Ho. right. exact Hi.
    + intros i Hi HR. assert (k = i) by (apply (Hs k i x); auto; [left; reflexivity | right; exact Hi]). subst. contradiction.
  - assert (Hjk : j <> k) by (intros ->; contradiction).
    rewrite (IH _ k x); auto.
    + apply Hr; [right; exact Hk| |exact Hx]. intros y Hy. apply Ho; [left; reflexivity|]. intro HR. apply Hjk. apply (Hs j k y); auto; [left; reflexivity | right; exact Hk].
    + intros i Hi. apply Ho. right. exact Hi.
    + intros i Hi. apply Hr. right. exact Hi.
    + intros a b y Ha Hb. apply Hs; right; assumption.
Qed.
End Separate.

(** A loop that updates one cell in each step. *)
Lemma loop_cells_out : forall A lo n (c : Z -> Z) (g : Z -> A -> A) m x, (forall k, lo <= k < n -> x <> c k) ->
  loop lo n (fun k m => put (c k) (g k (m (c k))) m) m x = m x.
Proof.
  intros A lo n c g m x H. unfold loop. apply (separate_out _ (fun k x => x = c k)).
  - intros k _ m' y Hy. unfold put. destruct (Z.eqb_spec y (c k)); [contradiction|reflexivity].
  - intros k Hk. apply range_in in Hk. apply H. exact Hk.
Qed.
Lemma loop_cells_at : forall A lo n (c : Z -> Z) (g : Z -> A -> A) m k, lo <= k < n -> (forall j k, lo <= j < n -> lo <= k < n -> c j = c k -> j = k) ->
  loop lo n (fun k m => put (c k) (g k (m (c k))) m) m (c k) = g k (m (c k)).
Proof.
  intros A lo n c g m k Hk Hc. unfold loop. rewrite (separate_at (fun k m => put (c k) (g k (m (c k))) m) (fun k x => x = c k) _ _ k).
  - unfold put. rewrite Z.eqb_refl. reflexivity.
  - apply range_NoDup.
  - apply range_in. exact Hk.
  - reflexivity.
  - intros j _ m' y Hy. unfold put. destruct (Z.eqb_spec y (c j)); [contradiction|reflexivity].
  - intros j _ m1 m2 H y ->. unfold put. rewrite Z.eqb_refl. rewrite H; reflexivity.
  - intros i j x Hi Hj Hx Hy. apply range_in in Hi, Hj. apply Hc; auto. congruence.
Qed.

(** ** Sums *)
Lemma total_app : forall l r, total (l ++ r) = (total l + total r)%Qc.
Proof. induction l as [|x l IH]; intro r; cbn [total app]; [ring|]. rewrite IH. ring. Qed.
Lemma plus_pair : forall z w, plus z w = cadd z w. Proof. reflexivity. Qed.
Lemma cadd_assoc : forall x y z, cadd (cadd x y) z = cadd x (cadd y z).
Proof. intros. unfold cadd. cbn [fst snd]. f_equal; ring. Qed.
Lemma cadd_0_r : forall x, cadd x c0 = x.
Proof. intros [a b]. unfold cadd, c0. cbn [fst snd]. f_equal; ring. Qed.
Lemma cadd_0_l : forall x, cadd c0 x = x.
Proof. intros [a b]. unfold cadd, c0. cbn [fst snd]. f_equal; ring. Qed.
Lemma total_c_app : forall l r, total_c (l ++ r) = cadd (total_c l) (total_c r).
Proof.
  induction l as [|x l IH]; intro r; cbn [total_c app]; [symmetry; apply cadd_0_l|]. rewrite IH, !plus_pair. symmetry. apply cadd_assoc.
Qed.
Lemma total_filter : forall A (b : A -> bool) (v : A -> Qc) l, total (map (fun j => factor (b j) * v j)%Qc l) = total (map v (filter b l)).
Proof.
  induction l as [|x l IH]; [reflexivity|]. cbn [map total filter]. rewrite IH. unfold factor. destruct (b x); cbn [map total]; ring.
Qed.
Lemma existsb_loop : forall n (c : Z -> bool), loop 0 n (fun k b => if c k then false else b) true = negb (existsb c (range 0 n)).
Proof.
  intros n c. destruct (Z.le_gt_cases n 0) as [H|H]; [unfold loop; rewrite range_nil by lia; reflexivity|].
  apply (loop_ind _ (fun k b => b = negb (existsb c (range 0 k)))); [lia|rewrite range_nil by lia; reflexivity|].
  intros k s Hk ->. rewrite range_snoc by lia. rewrite existsb_app. cbn [existsb]. rewrite orb_false_r. destruct (c k), (existsb c (range 0 k)); reflexivity.
Qed.

(** ** The transforms *)
Lemma qz_num : forall z, qz z = num z. Proof. reflexivity. Qed.
Lemma abs2_power : forall z, abs2 z = power z. Proof. intros [a b]. reflexivity. Qed.
Lemma existsb_map : forall A B (f : A -> B) p l, existsb p (map f l) = existsb (fun x => p (f x)) l.
Proof. induction l as [|x l IH]; [reflexivity|]. cbn [map existsb]. rewrite IH. reflexivity. Qed.
Lemma existsb_ext_in : forall A (p q : A -> bool) l, (forall x, In x l -> p x = q x) -> existsb p l = existsb q l.
Proof. induction l as [|x l IH]; intro H; [reflexivity|]. cbn [existsb]. rewrite (H x (or_introl eq_refl)), IH; [reflexivity|]. intros y Hy. apply H. right. exact Hy. Qed.

Section Transform.
Context (F : list C -> list C) (L taps level : Z) (w : option (Z -> Qc)) (n i : Z) (data : Z -> C) (x : list C).
Hypothesis HL : 0 < L.
Hypothesis Ht : 0 < taps.
Hypothesis Hx : zlen x = n.
Hypothesis Hd : forall q, 0 <= q < n -> data (n * i + q) = znth c0 q x.

Lemma fetch_sample : forall p k, p + L <= n -> 0 <= k < L * taps -> fetch L taps data (n * i) (n * i + p) k = sample x (p - L * (taps - 1) + k).
Proof.
  intros p k Hp Hk. unfold fetch, sample. replace (n * i + p - L * (taps - 1) + k) with (n * i + (p - L * (taps - 1) + k)) by lia.
  replace (n * i + (p - L * (taps - 1) + k) <? n * i) with (p - L * (taps - 1) + k <? 0) by lia.
  destruct (Z.ltb_spec (p - L * (taps - 1) + k) 0); [reflexivity|]. apply Hd. lia.
Qed.
Lemma clean_blanked : forall p, p + L <= n -> clean L taps level data (n * i) (n * i + p) = negb (blanked L taps level x p).
Proof.
  intros p Hp. unfold clean. rewrite existsb_loop. f_equal. unfold blanked, used. rewrite upto_range.
  replace (p - L * (taps - 1)) with (0 + (p - L * (taps - 1))) at 1 by lia. replace (p + L) with (L * taps + (p - L * (taps - 1))) by lia.
  rewrite range_shift, existsb_map. apply existsb_ext_in. intros k Hk. apply range_in in Hk. rewrite fetch_sample by lia.
  rewrite (Z.add_comm k). unfold clipped, too_large. rewrite abs2_power. reflexivity.
Qed.
Lemma tap_block : forall p l, p + L <= n -> 0 <= l < taps -> tap F L taps w data (n * i) (n * i + p) l = F (block L taps w x p l).
Proof.
  intros p l Hp Hl. unfold tap, block. f_equal. rewrite upto_range. replace (range (l * L) (l * L + L)) with (range (0 + l * L) (L + l * L)) by (f_equal; lia).
  rewrite range_shift, map_map. apply map_ext_in. intros k Hk. apply range_in in Hk. unfold weighted, weigh.
  assert (0 <= k + l * L < L * taps) by nia. rewrite (Z.add_comm k (l * L)) in *.
  rewrite fetch_sample by lia. rewrite Z.add_assoc. reflexivity.
Qed.
Lemma channel_bin : forall p b, p + L <= n -> channel F L taps w data (n * i) (n * i + p) b = bin F L taps w x p b.
Proof.
  intros p b Hp. unfold channel, bin. rewrite upto_range.
  rewrite (loop_ind _ (fun l acc => l <= taps -> acc = total_c (map (fun l => znth c0 b (F (block L taps w x p l))) (range 0 l))) 1 taps); [reflexivity|lia| | |lia].
  - intros _. change (range 0 1) with [0]. cbn [app map total_c]. change plus with cadd. change (0%Qc, 0%Qc) with c0. rewrite cadd_0_r. rewrite tap_block by lia. reflexivity.
  - intros l s Hl IH Hl2. rewrite IH by lia. rewrite range_snoc by lia. rewrite map_app, total_c_app. cbn [map total_c]. change plus with cadd. change (0%Qc, 0%Qc) with c0. rewrite cadd_0_r.
    rewrite tap_block by lia. reflexivity.
Qed.
End Transform.
