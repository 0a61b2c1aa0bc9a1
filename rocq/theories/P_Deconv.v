(** Images as functions of the cell: sums, maxima, rolling. *)
From Coq Require Import List ZArith QArith Qcanon Bool Lia Permutation Sorted.
From Verif Require Import LibList M_Py M_Num M_Base P_Base S_Corr P_Corr P_GridC P_Math M_Deconv S_Deconv.
Import ListNotations.
Open Scope Z_scope.

Lemma cells_in H W c : In c (cells H W) <-> inside H W c.
Proof.
  unfold cells, inside. rewrite in_flat_map. split.
  - intros [x [Hx Hc]]. apply in_map_iff in Hc. destruct Hc as [y [<- Hy]]. apply range_in in Hx, Hy. cbn. lia.
  - intros [Hx Hy]. exists (fst c). split; [apply range_in; exact Hx|]. apply in_map_iff. exists (snd c). split; [destruct c; reflexivity|apply range_in; exact Hy].
Qed.
Lemma isum_from l : forall a, fold_left (fun s x => (s + x)%Qc) l a = (a + total l)%Qc.
Proof. induction l as [|x l IH]; intro a; cbn [fold_left total]; [ring|rewrite IH; ring]. Qed.
Lemma isum_total l : isum l = total l. Proof. unfold isum. rewrite isum_from. ring. Qed.
Lemma total_cells H W a : total (map a (cells H W)) = sum_over H W a.
Proof.
  unfold cells, sum_over. rewrite !upto_range. induction (range 0 H) as [|x l IH]; cbn [flat_map map total]; [reflexivity|].
  rewrite map_app, total_app, IH, map_map. reflexivity.
Qed.
Lemma isum_over H W a : isum (values H W a) = sum_over H W a. Proof. unfold values. rewrite isum_total. apply total_cells. Qed.
Lemma sum_over_ext H W a b : (forall c, inside H W c -> a c = b c) -> sum_over H W a = sum_over H W b.
Proof. intro E. rewrite <- !total_cells. apply total_ext. intros c Hc. apply E, cells_in, Hc. Qed.
Lemma sum_over_plus H W a b : sum_over H W (fun c => a c + b c)%Qc = (sum_over H W a + sum_over H W b)%Qc.
Proof. rewrite <- !total_cells. induction (cells H W) as [|c l IH]; cbn [map total]; [ring|rewrite IH; ring]. Qed.
Lemma sum_over_scale H W a k : sum_over H W (fun c => k * a c)%Qc = (k * sum_over H W a)%Qc.
Proof. rewrite <- !total_cells. induction (cells H W) as [|c l IH]; cbn [map total]; [ring|rewrite IH; ring]. Qed.
Lemma sum_over_minus H W a b : sum_over H W (fun c => a c - b c)%Qc = (sum_over H W a - sum_over H W b)%Qc.
Proof. rewrite <- !total_cells. induction (cells H W) as [|c l IH]; cbn [map total]; [ring|rewrite IH; ring]. Qed.

(** the number of cells *)
Lemma zlen_cells H W : 0 <= H -> 0 <= W -> zlen (cells H W) = H * W.
Proof.
  intros HH HW. unfold cells. assert (G : forall l : list Z, zlen (flat_map (fun x : Z => map (fun y => (x, y)) (range 0 W)) l) = zlen l * W).
  { induction l as [|x l IH]; cbn [flat_map]; [reflexivity|]. rewrite zlen_app, IH, zlen_map, range_len, zlen_cons. lia. }
  rewrite G, range_len. f_equal; lia.
Qed.
Lemma cells_empty H W : H <= 0 \/ W <= 0 -> cells H W = [].
Proof. intro D. destruct (cells H W) as [|c l] eqn:E; [reflexivity|]. assert (I : In c (cells H W)) by (rewrite E; left; reflexivity). apply cells_in in I. unfold inside in I. lia. Qed.
Lemma imean_over H W a : 0 <= H -> 0 <= W -> imean (values H W a) = mean_over H W a.
Proof. intros HH HW. unfold imean. rewrite isum_over. unfold values. rewrite zlen_map, zlen_cells by assumption. reflexivity. Qed.
Lemma ivar_over H W a : 0 <= H -> 0 <= W -> ivar (values H W a) = variance H W a.
Proof.
  intros HH HW. unfold ivar. rewrite imean_over by assumption. unfold variance. rewrite <- (imean_over H W (fun c => square _)) by assumption. unfold values. rewrite map_map. reflexivity.
Qed.

(** the maximum and its first place *)
Lemma qlt_iff (x y : Qc) : qlt x y = true <-> (x < y)%Qc.
Proof. unfold qlt. rewrite negb_true_iff. apply qle_bool_false. Qed.
Lemma qlt_false (x y : Qc) : qlt x y = false <-> (y <= x)%Qc.
Proof. unfold qlt. rewrite negb_false_iff. apply qle_bool_iff. Qed.
Lemma imax_spec l m : imax l = Some m -> In m l /\ forall y, In y l -> (y <= m)%Qc.
Proof.
  destruct l as [|x l]; [discriminate|]. cbn [imax]. intro E. injection E as E.
  assert (G : forall l x, (fold_left (fun m y => if qlt m y then y else m) l x = x \/ In (fold_left (fun m y => if qlt m y then y else m) l x) l)
    /\ (x <= fold_left (fun m y => if qlt m y then y else m) l x)%Qc /\ forall y, In y l -> (y <= fold_left (fun m y => if qlt m y then y else m) l x)%Qc).
  { clear. induction l as [|y l IH]; intro x; cbn [fold_left].
    - split; [auto|]. split; [apply Qcle_refl|intros y []].
    - destruct (qlt x y) eqn:T.
      + apply qlt_iff in T. destruct (IH y) as [A [B C]]. split; [right; destruct A as [-> | A]; [left; reflexivity|right; exact A]|]. split; [apply Qclt_le_weak, (Qclt_le_trans _ y); assumption|].
        intros z [<-|Hz]; [exact B|apply C, Hz].
      + apply qlt_false in T. destruct (IH x) as [A [B C]]. split; [destruct A as [A|A]; [left; exact A|right; right; exact A]|]. split; [exact B|].
        intros z [<-|Hz]; [apply (Qcle_trans _ x); assumption|apply C, Hz]. }
  destruct (G l x) as [A [B C]]. rewrite E in *. split; [destruct A as [A|A]; [left; symmetry; exact A|right; exact A]|]. intros y [<-|Hy]; [exact B|apply C, Hy].
Qed.
Lemma imax_some l : l <> [] -> exists m, imax l = Some m. Proof. destruct l; [congruence|eexists; reflexivity]. Qed.
Lemma sorted_app {A} (R : A -> A -> Prop) l r : StronglySorted R l -> StronglySorted R r -> (forall x y, In x l -> In y r -> R x y) -> StronglySorted R (l ++ r).
Proof.
  intros SL SR D. induction l as [|x l IH]; cbn [app]; [exact SR|]. apply StronglySorted_inv in SL. destruct SL as [A1 A2]. constructor.
  - apply IH; [exact A1|]. intros a b Ha Hb. apply D; [right; exact Ha|exact Hb].
  - rewrite Forall_forall in *. intros z Hz. apply in_app_iff in Hz. destruct Hz as [Hz|Hz]; [apply A2, Hz|apply D; [left; reflexivity|exact Hz]].
Qed.
Lemma range_sorted a b : StronglySorted Z.lt (range a b).
Proof.
  remember (Z.to_nat (b - a)) as n eqn:E. revert a E. induction n as [|n IH]; intros a E; [rewrite range_nil by lia; constructor|]. rewrite range_cons by lia.
  constructor; [apply IH; lia|]. apply Forall_forall. intros z Hz. apply range_in in Hz. lia.
Qed.
Lemma cells_sorted H W : StronglySorted before (cells H W).
Proof.
  unfold cells. pose proof (range_sorted 0 H) as SH. induction (range 0 H) as [|x l IH]; cbn [flat_map]; [constructor|].
  apply StronglySorted_inv in SH. destruct SH as [SH1 SH2]. rewrite Forall_forall in SH2. apply sorted_app; [|apply IH, SH1|].
  - clear IH. pose proof (range_sorted 0 W) as SW. induction (range 0 W) as [|y r IHr]; cbn [map]; [constructor|]. apply StronglySorted_inv in SW. destruct SW as [A B]. constructor; [apply IHr, A|].
    rewrite Forall_forall in B. apply Forall_forall. intros c Hc. apply in_map_iff in Hc. destruct Hc as [z [<- Hz]]. right. cbn. split; [reflexivity|apply B, Hz].
  - intros c d Hc Hd. apply in_map_iff in Hc. destruct Hc as [y [<- _]]. apply in_flat_map in Hd. destruct Hd as [z [Hz Hd]]. apply in_map_iff in Hd. destruct Hd as [w [<- _]]. left. cbn. apply SH2, Hz.
Qed.
Lemma find_first {A} (R : A -> A -> Prop) (P : A -> bool) l p : StronglySorted R l -> find P l = Some p -> forall d, In d l -> P d = true -> d = p \/ R p d.
Proof.
  induction l as [|x l IH]; intros SL F d Hd Pd; [discriminate|]. apply StronglySorted_inv in SL. destruct SL as [A1 A2]. cbn [find] in F. destruct (P x) eqn:T.
  - injection F as ->. destruct Hd as [->|Hd]; [left; reflexivity|right]. rewrite Forall_forall in A2. apply A2, Hd.
  - destruct Hd as [->|Hd]; [congruence|]. apply IH; assumption.
Qed.
Lemma qc_eq_bool_true (x y : Qc) : Qc_eq_bool x y = true <-> x = y.
Proof. unfold Qc_eq_bool. destruct (Qc_eq_dec x y); split; congruence. Qed.
Lemma peak_first H W a p : peak_of H W a = Some p -> first_greatest H W a p.
Proof.
  unfold peak_of, values. destruct (imax (map a (cells H W))) as [m|] eqn:M; [|discriminate]. intro F. apply imax_spec in M. destruct M as [_ Hm].
  pose proof (find_first _ _ _ _ (cells_sorted H W) F) as FF. apply find_some in F. destruct F as [I T]. apply qc_eq_bool_true in T. split; [apply cells_in, I|].
  intros d Hd. apply cells_in in Hd. assert (L : (a d <= a p)%Qc) by (rewrite T; apply Hm, in_map, Hd). split; [exact L|]. intro B.
  apply Qcle_lt_or_eq in L. destruct L as [L|L]; [exact L|]. exfalso. rewrite T in L. specialize (FF d Hd (proj2 (qc_eq_bool_true _ _) L)). unfold before in *. destruct FF as [->|FF]; lia.
Qed.
Lemma peak_found H W a : 0 < H -> 0 < W -> exists p, peak_of H W a = Some p.
Proof.
  intros HH HW. unfold peak_of, values. assert (I : In (0, 0) (cells H W)) by (apply cells_in; unfold inside; cbn; lia).
  destruct (imax_some (map a (cells H W))) as [m M]; [intro E; apply map_eq_nil in E; rewrite E in I; destruct I|]. rewrite M. apply imax_spec in M. destruct M as [Hm _].
  apply in_map_iff in Hm. destruct Hm as [c [Ec Hc]]. destruct (find (fun c => Qc_eq_bool (a c) m) (cells H W)) as [p|] eqn:F; [eauto|]. exfalso.
  pose proof (find_none _ _ F c Hc) as N. apply (proj2 (qc_eq_bool_true (a c) m)) in Ec. cbn in N. congruence.
Qed.
Lemma peak_none H W a : H <= 0 \/ W <= 0 -> peak_of H W a = None.
Proof. intro D. unfold peak_of, values. rewrite cells_empty by exact D. reflexivity. Qed.

(** sizes *)
Lemma Qcmult_pos_le (a b c d : Qc) : (0 <= a)%Qc -> (a <= b)%Qc -> (0 <= c)%Qc -> (c <= d)%Qc -> (a * c <= b * d)%Qc.
Proof.
  intros A B C0 D. apply (Qcle_trans _ (b * c)%Qc); [apply Qcmult_le_compat_r; assumption|].
  rewrite (Qcmult_comm b c), (Qcmult_comm b d). apply Qcmult_le_compat_r; [exact D|]. apply (Qcle_trans _ a); assumption.
Qed.
Lemma qabs_nonneg x : (0 <= qabs x)%Qc.
Proof.
  unfold qabs. destruct (Qle_bool 0 x) eqn:T; [apply (proj1 (qle_bool_iff 0%Qc x)), T|]. apply (proj1 (qle_bool_false 0%Qc x)) in T. apply Qclt_le_weak in T. apply Qcopp_le_compat in T.
  replace (- 0)%Qc with 0%Qc in T by ring. exact T.
Qed.
Lemma qabs_square x : (qabs x * qabs x)%Qc = square x.
Proof. unfold qabs, square. destruct (Qle_bool 0 x); ring. Qed.
Lemma qabs_le x y : (qabs x <= qabs y)%Qc -> (square x <= square y)%Qc.
Proof. intro L. rewrite <- !qabs_square. apply Qcmult_pos_le; try apply qabs_nonneg; exact L. Qed.
Lemma qabs_lt x y : (qabs x < qabs y)%Qc -> (square x < square y)%Qc.
Proof.
  intro L. rewrite <- !qabs_square. apply (Qcle_lt_trans _ (qabs x * qabs y)%Qc).
  - apply Qcmult_pos_le; try apply qabs_nonneg; [apply Qcle_refl|apply Qclt_le_weak, L].
  - apply Qcmult_lt_compat_r; [|exact L]. apply (Qcle_lt_trans _ (qabs x)); [apply qabs_nonneg|exact L].
Qed.
Lemma greatest_square H W r p : first_greatest H W (fun c => qabs (r c)) p -> first_greatest H W (fun c => square (r c)) p.
Proof. intros [I G]. split; [exact I|]. intros d Hd. destruct (G d Hd) as [A B]. split; [apply qabs_le, A|]. intro C0. apply qabs_lt, B, C0. Qed.

(** rolling *)
Lemma total_perm l r : Permutation l r -> total l = total r.
Proof. intro P. induction P; cbn [total]; [reflexivity|rewrite IHP; reflexivity|ring|congruence]. Qed.
Lemma inj_NoDup {A B} (f : A -> B) l : (forall x y, In x l -> In y l -> f x = f y -> x = y) -> NoDup l -> NoDup (map f l).
Proof.
  intros I N. induction N as [|x l Hx N IH]; cbn [map]; constructor.
  - intro Hi. apply in_map_iff in Hi. destruct Hi as [y [E Hy]]. apply Hx. rewrite <- (I y x (or_intror Hy) (or_introl eq_refl) E). exact Hy.
  - apply IH. intros a b Ha Hb. apply I; right; assumption.
Qed.
Lemma roll_range n s : Permutation (map (fun x => (x - s) mod n) (range 0 n)) (range 0 n).
Proof.
  destruct (Z.le_gt_cases n 0) as [L|L]; [rewrite range_nil by lia; constructor|]. apply NoDup_Permutation_bis.
  - apply inj_NoDup; [|apply range_NoDup]. intros x y Hx Hy E. apply range_in in Hx, Hy.
    assert (D : (x - y) mod n = 0) by (replace (x - y) with ((x - s) - (y - s)) by lia; rewrite Zminus_mod, E, Z.sub_diag, Z.mod_0_l by lia; reflexivity).
    apply Z.mod_divide in D; [|lia]. destruct D as [k D]. assert (k = 0) by nia. lia.
  - rewrite map_length. reflexivity.
  - intros z Hz. apply in_map_iff in Hz. destruct Hz as [x [<- _]]. apply range_in. apply Z.mod_pos_bound. lia.
Qed.
Lemma sum_roll H W sx sy b : sum_over H W (roll H W sx sy b) = sum_over H W b.
Proof.
  unfold sum_over, roll. rewrite !upto_range. cbn [fst snd].
  transitivity (total (map (fun x => total (map (fun y => b (x, y)) (range 0 W))) (map (fun x => (x - sx) mod H) (range 0 H)))).
  - rewrite map_map. apply total_ext. intros x _. transitivity (total (map (fun y => b ((x - sx) mod H, y)) (map (fun y => (y - sy) mod W) (range 0 W)))); [rewrite map_map; reflexivity|].
    apply total_perm, Permutation_map, roll_range.
  - apply total_perm, Permutation_map, roll_range.
Qed.
Lemma roll_centred H W p b d : roll H W (fst p - H / 2) (snd p - W / 2) b d = centred H W b p d.
Proof. unfold roll, centred. do 2 f_equal; f_equal; lia. Qed.
