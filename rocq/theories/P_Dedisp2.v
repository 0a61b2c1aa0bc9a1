(** Pieces of a stream, and windows as convolutions. *)
From Coq Require Import List ZArith QArith Qcanon Bool Lia.
From Verif Require Import LibList M_Dedisp S_Dedisp P_Base P_Dedisp.
Import ListNotations.
Open Scope Z_scope.

Lemma map_range_shift : forall A (f : Z -> A) o a b, map f (range (o + a) (o + b)) = map (fun k => f (o + k)) (range a b).
Proof.
  intros. unfold range. rewrite !map_map. replace (o + b - (o + a)) with (b - a) by lia. apply map_ext. intro k. f_equal. lia.
Qed.
Lemma map_range_ext : forall A (f g : Z -> A) a b, (forall k, a <= k < b -> f k = g k) -> map f (range a b) = map g (range a b).
Proof. intros. apply map_ext_in. intros k Hk. apply range_in in Hk. auto. Qed.
Lemma range_app : forall a b c, a <= b <= c -> range a c = range a b ++ range b c.
Proof.
  intros a b c H. unfold range. replace (Z.to_nat (c - a)) with (Z.to_nat (b - a) + Z.to_nat (c - b))%nat by lia.
  rewrite seq_app, map_app. f_equal. simpl.
  rewrite <- (map_map Z.of_nat (fun k => b + k)), <- (map_map Z.of_nat (fun k => a + k)).
  replace (seq (Z.to_nat (b - a)) (Z.to_nat (c - b))) with (map (fun k => (Z.to_nat (b - a) + k)%nat) (seq 0 (Z.to_nat (c - b)))).
  - rewrite !map_map. apply map_ext. intro k. lia.
  - clear. generalize (Z.to_nat (b - a)) as u, (Z.to_nat (c - b)) as v. intros u v.
    assert (G : forall v s, map (fun k => (u + k)%nat) (seq s v) = seq (u + s) v).
    { induction v0 as [|w IH]; intro s; simpl; auto. rewrite IH. f_equal. f_equal. lia. }
    rewrite G. f_equal. lia.
Qed.

Section Pieces.
Context {T A : Type} (zT : T) (zA : A).
Notation pair := (list T * list A)%type.
Context (H : Z) (HH : 0 < H).
Let N := 2 * H.
Context (dd : list A -> list A) (Hdd : forall y, zlen y = N -> zlen (dd y) = N).
(** What a sample is made of; [G]: the steps by which pieces may be cut. *)
Context (F : (Z -> A) -> Z -> A) (G : Z) (HG : 0 < G).
Hypothesis F_windowed : forall s k, windowed zA N dd s k = F s k.
Hypothesis F_local : forall s s' o k, o mod G = 0 -> (forall j, k - N < j < k + N -> s j = s' (o + j)) -> F s k = F s' (o + k).

Definition cuttable (p : pair) : Prop := zlen (fst p) = zlen (snd p) /\ N <= zlen (snd p) /\ zlen (snd p) mod N <= H /\ zlen (snd p) mod G = 0.
Definition first_out (prev : option pair) (k : Z) : bool := (k / H =? 0) && match prev with None => true | Some _ => false end.

Lemma left_out_cut : forall (x : list A) (prev next : option pair) k, zlen x mod N <= H -> next <> None -> 0 <= k < zlen x -> left_out N (zlen x) prev next k = first_out prev k.
Proof.
  intros x prev next k M Nn Hk. unfold left_out, first_out. replace (N / 2) with H by (unfold N; rewrite Z.mul_comm, Z.div_mul; lia).
  assert (B : k / H <= 2 * (zlen x / N)).
  { assert (k / H < 2 * (zlen x / N) + 1); [|lia]. apply Z.div_lt_upper_bound; auto.
    pose proof (Z.div_mod (zlen x) N ltac:(unfold N; lia)). unfold N in *. lia. }
  replace (2 * (zlen x / N) <? k / H) with false by lia. destruct next; [|congruence]. rewrite andb_false_r, !orb_false_r. reflexivity.
Qed.

Lemma coh_map : forall t x prev next, cuttable (t, x) -> enough N prev -> enough N next -> next <> None ->
  coherent_with zT zA N dd t x (option_map fst prev) (option_map snd prev) (option_map fst next) (option_map snd next)
  = Ok (map (fun k => if first_out prev k then zT else znth zT k t) (range 0 (zlen x)),
        map (fun k => if first_out prev k then zA else F (stream zA (option_map snd prev) x (option_map snd next)) k) (range 0 (zlen x))).
Proof.
  intros t x prev next (L & LN & LM & LG) Ep En Nn. cbn [fst snd] in *.
  assert (B : 0 < zlen x / N) by (apply Z.div_str_pos; unfold N in *; lia).
  assert (EQ : 0 <= H / 2 <= H) by (Z.div_mod_to_equations; lia).
  assert (MO : forall a b (o : option pair), b <= a -> enough a o -> enough b o) by (intros a b [[u v]|] Hab Ho; simpl in *; auto; lia).
  pose proof (Z.div_mod (zlen x) N ltac:(unfold N; lia)) as DM.
  destruct (coherent_ok zT zA H (zlen x / N) t x prev next HH L eq_refl B (MO N (H / 2) prev ltac:(unfold N; lia) Ep) dd) as (oT & oD & E & LT & LD & O); auto.
  { apply (MO N); auto. fold N. pose proof (Z.mod_pos_bound (zlen x) N ltac:(unfold N; lia)). unfold N in *. lia. }
  fold N in E, O. rewrite E. pose proof (zlen_nonneg x). f_equal. f_equal.
  - apply (znth_ext zT); [rewrite zlen_map_range by lia; lia|]. intros k Hk. rewrite znth_map_range by lia. cbn [Z.add]. destruct (O k ltac:(lia)) as [-> _].
    rewrite left_out_cut by (auto; lia). reflexivity.
  - apply (znth_ext zA); [rewrite zlen_map_range by lia; lia|]. intros k Hk. rewrite znth_map_range by lia. cbn [Z.add]. destruct (O k ltac:(lia)) as [_ ->].
    rewrite left_out_cut by (auto; lia). rewrite F_windowed. reflexivity.
Qed.

Lemma stream_app_left : forall (p : option (list A)) a b r n j, N <= zlen b -> j < zlen a + N ->
  stream zA p a (Some (b ++ r)) j = stream zA p (a ++ b ++ r) n j.
Proof.
  intros p a b r n j Lb Hj. unfold stream. destruct (Z.ltb_spec j 0); auto. pose proof (zlen_nonneg r). rewrite !zlen_app.
  destruct (Z.ltb_spec j (zlen a)), (Z.ltb_spec j (zlen a + (zlen b + zlen r))); try lia.
  - rewrite znth_app_l by lia. auto.
  - rewrite (znth_app_r _ _ a) by lia. reflexivity.
Qed.

Lemma stream_app_next : forall (p : option (list A)) a b n j, 0 <= zlen a -> - zlen a <= j ->
  stream zA (Some a) b n j = stream zA p (a ++ b) n (zlen a + j).
Proof.
  intros p a b n j La Hj. unfold stream. rewrite zlen_app.
  destruct (Z.ltb_spec j 0), (Z.ltb_spec (zlen a + j) 0); try lia.
  - destruct (Z.ltb_spec (zlen a + j) (zlen a + zlen b)); [|pose proof (zlen_nonneg b); lia]. rewrite znth_app_l by lia. reflexivity.
  - destruct (Z.ltb_spec j (zlen b)), (Z.ltb_spec (zlen a + j) (zlen a + zlen b)); try lia.
    + rewrite znth_app_r by lia. f_equal. lia.
    + destruct n; auto. f_equal. lia.
Qed.

Lemma enough_app : forall k (t t' : list T) (x x' : list A), enough k (Some (t, x)) -> enough k (Some (t ++ t', x ++ x')).
Proof. intros k t t' x x' [E1 E2]. simpl. rewrite !zlen_app. pose proof (zlen_nonneg t'). pose proof (zlen_nonneg x'). lia. Qed.

Lemma pieces_map : forall l prev next, Forall cuttable l -> l <> [] -> enough N prev -> enough N next -> next <> None ->
  let ts := concat (map fst l) in let xs := concat (map snd l) in
  zlen ts = zlen xs /\ N <= zlen xs /\
  piecewise (coherent_with zT zA N dd) prev l next
  = Ok (map (fun k => if first_out prev k then zT else znth zT k ts) (range 0 (zlen xs)),
        map (fun k => if first_out prev k then zA else F (stream zA (option_map snd prev) xs (option_map snd next)) k) (range 0 (zlen xs))).
Proof.
  induction l as [|[t x] l IH]; intros prev next Hl Hne Ep En Nn; [congruence|]. inversion Hl as [|? ? Hp Hl']; subst. cbn [map concat fst snd].
  destruct l as [|[t2 x2] l].
  - cbn [map concat piecewise]. rewrite !app_nil_r. destruct Hp as (L & LN & LM & LG). cbn [fst snd] in *. split; auto. split; auto.
    rewrite coh_map by (auto; repeat split; auto). cbn [bind]. rewrite !app_nil_r. reflexivity.
  - destruct (IH (Some (t, x)) next) as (LL & LN2 & E); auto; try discriminate.
    { destruct Hp as (L & LN & LM & LG). cbn [fst snd] in *. simpl. lia. }
    assert (Ep2 : enough N (Some (t2, x2))). { inversion Hl' as [|? ? P2 _]; subst. destruct P2 as (L2 & M2 & _). cbn [fst snd] in *. simpl. lia. }
    set (ts := concat (map fst ((t2, x2) :: l))) in *. set (xs := concat (map snd ((t2, x2) :: l))) in *.
    assert (Et : ts = t2 ++ concat (map fst l)) by reflexivity. assert (Ex : xs = x2 ++ concat (map snd l)) by reflexivity.
    pose proof Hp as (L & LN & LM & LG). cbn [fst snd] in L, LN, LM, LG. split; [rewrite !zlen_app; lia|]. split; [rewrite zlen_app; lia|].
    change (piecewise (coherent_with zT zA N dd) prev ((t, x) :: (t2, x2) :: l) next) with
      (bind (coherent_with zT zA N dd t x (option_map fst prev) (option_map snd prev) (Some t2) (Some x2)) (fun '(a, b) =>
       bind (piecewise (coherent_with zT zA N dd) (Some (t, x)) ((t2, x2) :: l) next) (fun '(a', b') => Ok (a ++ a', b ++ b')))).
    rewrite E. change (Some t2) with (option_map fst (Some (t2, x2))). change (Some x2) with (option_map snd (Some (t2, x2))).
    rewrite coh_map by (auto; discriminate). cbn [bind]. f_equal.
    assert (R : range 0 (zlen (x ++ xs)) = range 0 (zlen x) ++ range (zlen x + 0) (zlen x + zlen xs)).
    { rewrite zlen_app, Z.add_0_r. apply range_app. pose proof (zlen_nonneg x). lia. }
    rewrite R, !map_app, !map_range_shift.
    assert (K0 : forall k, 0 <= k -> (zlen x + k) / H =? 0 = false).
    { intros k Hk. assert (2 <= (zlen x + k) / H); [|lia]. apply Z.div_le_lower_bound; auto. unfold N in *. lia. }
    f_equal; f_equal.
    + apply map_range_ext. intros k Hk. destruct (first_out prev k); auto. symmetry. apply znth_app_l. lia.
    + apply map_range_ext. intros k Hk. unfold first_out. rewrite K0 by lia. rewrite andb_false_r. cbn [andb]. rewrite znth_app_r by lia. f_equal. lia.
    + apply map_range_ext. intros k Hk. destruct (first_out prev k); auto. rewrite <- (Z.add_0_l k) at 2. apply F_local; [apply Z.mod_0_l; lia|].
      intros j Hj. cbn [Z.add]. rewrite Ex.
      transitivity (stream zA (option_map snd prev) x (Some (x2 ++ concat (map snd l))) j).
      * unfold stream. destruct (Z.ltb_spec j 0); auto. destruct (Z.ltb_spec j (zlen x)); auto. cbn [option_map snd].
        rewrite znth_app_l; auto. destruct Ep2. lia.
      * apply stream_app_left; [destruct Ep2; auto|lia].
    + apply map_range_ext. intros k Hk. unfold first_out. rewrite K0 by lia. rewrite andb_false_r. cbn [andb]. apply F_local; auto.
      intros j Hj. apply stream_app_next; lia.
Qed.

Lemma cut_concat : forall l, Forall cuttable l -> zlen (concat (map snd l)) mod G = 0.
Proof.
  induction l as [|p l IH]; intro Hl; [apply Z.mod_0_l; lia|]. inversion Hl as [|? ? (E1 & E2 & E3 & E4) Hl']; subst. simpl. rewrite zlen_app.
  rewrite Zplus_mod, E4, (IH Hl'). simpl. apply Z.mod_0_l. lia.
Qed.

Lemma pieces_whole : forall l prev next, Forall cuttable l -> l <> [] -> zlen (concat (map snd l)) mod N <= H -> enough N prev -> enough N next -> next <> None ->
  piecewise (coherent_with zT zA N dd) prev l next = whole (coherent_with zT zA N dd) prev l next.
Proof.
  intros l prev next Hl Hne HM Ep En Nn. destruct (pieces_map l prev next) as (L & LN & E); auto. rewrite E. unfold whole. symmetry. apply coh_map; auto.
  repeat split; auto. apply cut_concat. auto.
Qed.
End Pieces.

Lemma windowed_local : forall A (zA : A) H dd, 0 < H -> forall s s' o k, o mod H = 0 ->
  (forall j, k - 2 * H < j < k + 2 * H -> s j = s' (o + j)) -> windowed zA (2 * H) dd s k = windowed zA (2 * H) dd s' (o + k).
Proof.
  intros A zA H dd HH s s' o k Ho E. unfold windowed. replace (2 * H / 2) with H by (rewrite Z.mul_comm, Z.div_mul; lia).
  set (Q := 2 * H / 4). assert (EQ : 0 <= Q <= H) by (unfold Q; Z.div_mod_to_equations; lia).
  assert (Eo : o = H * (o / H)) by (apply Z_div_exact_full_2; lia).
  assert (Ek : (o + k) / H = o / H + k / H) by (rewrite Eo at 1; rewrite Z.add_comm, Z.mul_comm, Z.div_add by lia; lia).
  rewrite Ek. replace (H * (o / H + k / H) - Q) with (o + (H * (k / H) - Q)) by nia. set (f := H * (k / H) - Q).
  replace (o + k - (o + f)) with (k - f) by lia. f_equal. f_equal. rewrite <- Z.add_assoc, map_range_shift. apply map_range_ext.
  intros j Hj. apply E. pose proof (Z.div_mod k H ltac:(lia)). pose proof (Z.mod_pos_bound k H HH). unfold f in *. lia.
Qed.

(** ** Convolutions *)
Lemma plus_comm : forall x y, plus x y = plus y x.
Proof. intros [a b] [c d]. unfold plus. simpl. f_equal; ring. Qed.
Lemma plus_assoc : forall x y z, plus (plus x y) z = plus x (plus y z).
Proof. intros [a b] [c d] [e f]. unfold plus. simpl. f_equal; ring. Qed.
Lemma plus_0 : forall x, plus czero x = x.
Proof. intros [a b]. unfold plus, czero. simpl. f_equal; ring. Qed.
Lemma times_0 : forall x, times czero x = czero.
Proof. intros [a b]. unfold times, czero. simpl. f_equal; ring. Qed.
Lemma sum_app : forall l r, sum (l ++ r) = plus (sum l) (sum r).
Proof. induction l as [|x l IH]; intro r; simpl; [rewrite plus_0; auto|]. rewrite IH, plus_assoc. auto. Qed.
Lemma sum_rev : forall l, sum (rev l) = sum l.
Proof. induction l as [|x l IH]; simpl; auto. rewrite sum_app, IH. simpl. rewrite plus_comm. f_equal. rewrite plus_comm. apply plus_0. Qed.
Lemma sum_zero : forall l, (forall x, In x l -> x = czero) -> sum l = czero.
Proof. induction l as [|x l IH]; intro E; simpl; auto. rewrite (E x), plus_0 by (left; auto). apply IH. intros. apply E. right. auto. Qed.
Lemma rev_range : forall q a b, map (fun j => q - j) (rev (range a b)) = range (q - b + 1) (q - a + 1).
Proof.
  intros q a b. destruct (Z.le_gt_cases b a); [rewrite !range_nil by lia; reflexivity|].
  apply (znth_ext 0); [rewrite zlen_map, zlen_rev, !range_len; lia|]. intros k Hk. rewrite zlen_map, zlen_rev, range_len in Hk.
  rewrite (znth_map _ _ (fun j => q - j) 0) by (rewrite zlen_rev, range_len; lia). rewrite znth_range by lia.
  unfold znth at 1. destruct (Z.ltb_spec k 0); [lia|]. pose proof (range_len a b) as RL. unfold zlen in RL.
  rewrite rev_nth by lia. pose proof (znth_range a b (b - a - 1 - k) ltac:(lia)) as E. unfold znth in E. destruct (Z.ltb_spec (b - a - 1 - k) 0); [lia|].
  replace (length (range a b) - S (Z.to_nat k))%nat with (Z.to_nat (b - a - 1 - k)) by lia. lia.
Qed.

Lemma windowed_circular : forall H h s k, 0 < H ->
  (forall j, H / 2 < j < 2 * H - H / 2 -> h j = czero) ->
  windowed czero (2 * H) (circular (2 * H) h) s k = convolved (H / 2) (fun j => h (j mod (2 * H))) s k.
Proof.
  intros H h s k HH S. unfold windowed. replace (2 * H / 2) with H by (rewrite Z.mul_comm, Z.div_mul; lia).
  replace (2 * H / 4) with (H / 2) by (replace (2 * H) with (H * 2) by lia; change 4 with (2 * 2); rewrite Z.div_mul_cancel_r; lia).
  set (Q := H / 2) in *. assert (EQ : 0 <= Q /\ 2 * Q <= H) by (unfold Q; Z.div_mod_to_equations; lia).
  set (f := H * (k / H) - Q). set (q := k - f).
  assert (Bq : Q <= q < Q + H). { pose proof (Z.div_mod k H ltac:(lia)). pose proof (Z.mod_pos_bound k H HH). unfold q, f. lia. }
  unfold circular. rewrite znth_map_range by lia. cbn [Z.add].
  assert (MS : forall a, - (2 * H) < a < 2 * H -> a mod (2 * H) = if a <? 0 then a + 2 * H else a).
  { intros a Ha. destruct (Z.ltb_spec a 0); [|apply Z.mod_small; lia]. symmetry. apply (Z.mod_unique a (2 * H) (-1)); lia. }
  rewrite (range_app 0 (q - Q) (2 * H)) by lia. rewrite (range_app (q - Q) (q + Q + 1) (2 * H)) by lia. rewrite !map_app, !sum_app.
  match goal with |- plus ?a (plus ?b ?c) = _ => assert (E1 : a = czero); [|assert (E3 : c = czero)] end.
  { apply sum_zero. intros y Hy. apply in_map_iff in Hy. destruct Hy as (m & <- & Hm). apply range_in in Hm. rewrite S; [apply times_0|]. rewrite MS by lia. destruct (Z.ltb_spec (q - m) 0); lia. }
  { apply sum_zero. intros y Hy. apply in_map_iff in Hy. destruct Hy as (m & <- & Hm). apply range_in in Hm. rewrite S; [apply times_0|]. rewrite MS by lia. destruct (Z.ltb_spec (q - m) 0); lia. }
  rewrite E1, E3, plus_0, plus_comm, plus_0. unfold convolved. rewrite <- sum_rev, <- map_rev.
  replace (range (q - Q) (q + Q + 1)) with (map (fun j => q - j) (rev (range (- Q) (Q + 1)))) by (rewrite rev_range; f_equal; lia).
  rewrite <- map_rev, rev_involutive, !map_map. f_equal. apply map_range_ext. intros j Hj. replace (q - (q - j)) with j by lia.
  rewrite znth_map_range by lia. f_equal. f_equal. unfold q. lia.
Qed.

Lemma convolved_local : forall R h s s' o k, (forall j, k - R <= j <= k + R -> s j = s' (o + j)) -> convolved R h s k = convolved R h s' (o + k).
Proof.
  intros R h s s' o k E. unfold convolved. f_equal. apply map_range_ext. intros j Hj. rewrite E by lia. f_equal. f_equal. lia.
Qed.
Lemma circular_len : forall N h x, 0 <= N -> zlen (circular N h x) = N.
Proof. intros. unfold circular. rewrite zlen_map_range by lia. lia. Qed.
