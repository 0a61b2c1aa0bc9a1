(** Proofs about coherent dedispersion. *)
From Coq Require Import List ZArith QArith Bool Lia.
From Verif Require Import LibList M_Dedisp S_Dedisp P_Base.
Import ListNotations.
Open Scope Z_scope.

Section L.
Context {A : Type}.
Implicit Types a b : list A.

Lemma zlen_repeat : forall (x : A) n, zlen (repeat x (Z.to_nat n)) = Z.max 0 n.
Proof. intros. unfold zlen. rewrite repeat_length. lia. Qed.
Lemma znth_repeat : forall (z : A) n k, znth z k (repeat z n) = z.
Proof. intros z n k. unfold znth. destruct (k <? 0); auto. revert n. induction (Z.to_nat k); intros [|m]; simpl; auto. Qed.
Lemma zlen_zeros : forall (z : A) n, 0 <= n -> zlen (zeros z n) = n.
Proof. intros. unfold zeros. rewrite zlen_repeat. lia. Qed.
Lemma znth_zeros : forall (z : A) n k, znth z k (zeros z n) = z.
Proof. intros. apply znth_repeat. Qed.
Lemma znth_out : forall (z : A) k l, k < 0 \/ zlen l <= k -> znth z k l = z.
Proof. intros z k l H. unfold znth, zlen in *. destruct (Z.ltb_spec k 0); auto. apply nth_overflow. lia. Qed.

Lemma zlen_slice : forall a lo hi, 0 <= lo -> zlen (slice a lo hi) = Z.max 0 (Z.min (hi - lo) (zlen a - lo)).
Proof.
  intros a lo hi H. unfold slice. destruct (Z.le_gt_cases 0 (hi - lo)).
  - rewrite zlen_ztake, zlen_zdrop by lia. lia.
  - rewrite ztake_0 by lia. rewrite zlen_nil. lia.
Qed.
Lemma znth_slice : forall z a lo hi k, 0 <= lo -> 0 <= k < hi - lo -> znth z k (slice a lo hi) = znth z (k + lo) a.
Proof. intros. unfold slice. rewrite znth_ztake by lia. apply znth_zdrop; lia. Qed.
Lemma zlen_last : forall a k, 0 <= k <= zlen a -> zlen (last_of a k) = k.
Proof. intros a k H. unfold last_of. rewrite zlen_zdrop by lia. lia. Qed.
Lemma znth_last : forall z a k i, 0 <= k <= zlen a -> 0 <= i -> znth z i (last_of a k) = znth z (zlen a - k + i) a.
Proof. intros z a k i H Hi. unfold last_of. rewrite znth_zdrop by lia. f_equal. lia. Qed.

Lemma assign_ok : forall a lo hi b, 0 <= lo <= hi -> hi <= zlen a -> zlen b = hi - lo ->
  assign a lo hi b = Ok (ztake lo a ++ b ++ zdrop hi a).
Proof.
  intros a lo hi b H1 H2 H3. unfold assign. replace (Z.min lo (zlen a)) with lo by lia. replace (Z.max lo (Z.min hi (zlen a))) with hi by lia.
  rewrite H3, Z.eqb_refl. reflexivity.
Qed.
Lemma assigned_len : forall a lo hi b, 0 <= lo <= hi -> hi <= zlen a -> zlen b = hi - lo -> zlen (ztake lo a ++ b ++ zdrop hi a) = zlen a.
Proof. intros. rewrite !zlen_app, zlen_ztake, zlen_zdrop by lia. lia. Qed.
Lemma assigned_nth : forall z a lo hi b k, 0 <= lo <= hi -> hi <= zlen a -> zlen b = hi - lo -> 0 <= k ->
  znth z k (ztake lo a ++ b ++ zdrop hi a) = if (lo <=? k) && (k <? hi) then znth z (k - lo) b else znth z k a.
Proof.
  intros z a lo hi b k H1 H2 H3 Hk. assert (L : zlen (ztake lo a) = lo) by (rewrite zlen_ztake by lia; lia).
  destruct (Z.leb_spec lo k); simpl.
  - rewrite znth_app_r by lia. rewrite L. destruct (Z.ltb_spec k hi).
    + apply znth_app_l. lia.
    + rewrite znth_app_r by lia. rewrite znth_zdrop by lia. f_equal. lia.
  - rewrite znth_app_l by lia. apply znth_ztake. lia.
Qed.

Lemma znth_range : forall (a b k : Z), 0 <= k < b - a -> znth 0 k (range a b) = a + k.
Proof.
  intros a b k H. unfold range, znth. destruct (Z.ltb_spec k 0); [lia|].
  rewrite (nth_indep _ 0 (a + Z.of_nat 0)) by (rewrite map_length, seq_length; lia).
  rewrite (map_nth (fun k => a + Z.of_nat k)). rewrite seq_nth by lia. lia.
Qed.
Lemma znth_map_range : forall (z : A) f (a b k : Z), 0 <= k < b - a -> znth z k (map f (range a b)) = f (a + k).
Proof.
  intros z f a b k H. rewrite (znth_map _ _ f 0) by (rewrite range_len; lia). rewrite znth_range by lia. reflexivity.
Qed.
Lemma zlen_map_range : forall f (a b : Z), a <= b -> zlen (map f (range a b) : list A) = b - a.
Proof. intros. rewrite zlen_map, range_len. lia. Qed.
End L.

Lemma range_snoc : forall a b, a <= b -> range a (b + 1) = range a b ++ [b].
Proof.
  intros a b H. unfold range. replace (Z.to_nat (b + 1 - a)) with (Z.to_nat (b - a) + 1)%nat by lia.
  rewrite seq_app, map_app. simpl. f_equal. f_equal. lia.
Qed.

Lemma stream_in : forall A (z : A) p x n j, 0 <= j < zlen x -> stream z p x n j = znth z j x.
Proof. intros. unfold stream. destruct (Z.ltb_spec j 0); [lia|]. destruct (Z.ltb_spec j (zlen x)); [auto|lia]. Qed.

Section Coherent.
Context {T A : Type} (zT : T) (zA : A).
Notation pair := (list T * list A)%type.

Section W.
Context (H n : Z) (t : list T) (x : list A) (p q : option pair).
Hypothesis HH : 0 < H.
Let Q := H / 2.
Let N := 2 * H.
Hypothesis Ht : zlen t = zlen x.
Hypothesis Hx : zlen x / N = n.
Hypothesis Hn : 0 < n.
Hypothesis Hp : enough Q p.
Let pt := option_map fst p.
Let pd := option_map snd p.
Let nt := option_map fst q.
Let nd := option_map snd q.
Let sT := stream zT pt t nt.
Let sA := stream zA pd x nd.

Lemma Q_bounds : 0 <= Q <= H /\ 2 * Q <= H.
Proof. unfold Q. Z.div_mod_to_equations. lia. Qed.
Lemma len_bounds : N * n <= zlen x < N * n + N.
Proof. pose proof (Z.div_mod (zlen x) N ltac:(unfold N; lia)). pose proof (Z.mod_pos_bound (zlen x) N ltac:(unfold N; lia)). lia. Qed.
Lemma N2 : N / 2 = H. Proof. unfold N. rewrite Z.mul_comm. apply Z.div_mul. lia. Qed.
Lemma N4 : N / 4 = Q. Proof. unfold N, Q. replace (2 * H) with (H * 2) by lia. change 4 with (2 * 2). rewrite Z.div_mul_cancel_r by lia. auto. Qed.

Lemma window_ok : forall i, 0 <= i <= 2 * n -> enough (H * i - Q + N - zlen x) q ->
  window zT zA N (H * i - Q) t x pt pd nt nd
  = Ok (map sT (range (H * i - Q) (H * i - Q + N)), map sA (range (H * i - Q) (H * i - Q + N))).
Proof.
  intros i Hi Hq. pose proof Q_bounds as [Q0 Q1]. pose proof len_bounds as L. unfold window. set (s := H * i - Q) in *.
  assert (N0 : 0 < N) by (unfold N; lia). assert (QN : 2 * Q <= N) by (unfold N; lia). assert (LN : N <= zlen x) by nia.
  assert (ZT : zlen (zeros zT N) = N) by (apply zlen_zeros; lia). assert (ZA : zlen (zeros zA N) = N) by (apply zlen_zeros; lia).
  assert (NH : N = 2 * H) by reflexivity. clearbody N Q.
  destruct (Z.ltb_spec s 0) as [S0|S0].
  - assert (i = 0) by (unfold s in S0; nia). subst i. assert (Es : s = - Q) by (unfold s; lia). clearbody s. subst s.
    unfold window_start.
    assert (E : exists a b, match pd with
        | None => Ok (zeros zT N, zeros zA N)
        | Some pd => as_runtime (bind (subscript pt) (fun pt =>
                     bind (assign (zeros zT N) 0 (- - Q) (last_of pt (- - Q))) (fun timeIn =>
                     bind (assign (zeros zA N) 0 (- - Q) (last_of pd (- - Q))) (fun dataIn => Ok (timeIn, dataIn)))))
        end = Ok (a, b) /\ zlen a = N /\ zlen b = N /\ (forall k, 0 <= k < Q -> znth zT k a = sT (- Q + k)) /\ (forall k, 0 <= k < Q -> znth zA k b = sA (- Q + k))).
    { unfold pd, pt, sT, sA, stream in *. destruct p as [[pt0 pd0]|]; cbn [option_map enough subscript bind fst snd] in *.
      - destruct Hp as [P1 P2]. rewrite Z.opp_involutive.
        pose proof (zlen_last pt0 Q ltac:(lia)) as M1. pose proof (zlen_last pd0 Q ltac:(lia)) as M2.
        rewrite !assign_ok by lia. cbn [bind as_runtime].
        eexists _, _. split; [reflexivity|].
        split; [rewrite assigned_len by lia; lia|]. split; [rewrite assigned_len by lia; lia|].
        split; intros k Hk; destruct (Z.ltb_spec (- Q + k) 0); try lia; rewrite assigned_nth by lia; destruct (Z.leb_spec 0 k); try lia; destruct (Z.ltb_spec k Q); try lia; simpl; rewrite znth_last by lia; f_equal; lia.
      - eexists _, _. split; [reflexivity|]. rewrite !zlen_zeros by lia. split; auto. split; auto.
        split; intros k Hk; rewrite znth_zeros; destruct (Z.ltb_spec (- Q + k) 0); auto; lia. }
    destruct E as (a & b & -> & La & Lb & Ea & Eb). cbn [bind].
    rewrite Z.opp_involutive.
    assert (G : forall B (zB : B) (y : list B) (c : list B) (sB : Z -> B), N <= zlen y + Q -> zlen c = N -> (forall k, 0 <= k < Q -> znth zB k c = sB (- Q + k)) ->
      (forall j, 0 <= j < zlen y -> sB j = znth zB j y) ->
      assign c Q N (slice y 0 (N + - Q)) = Ok (map sB (range (- Q) (- Q + N)))).
    { intros B zB y c sB By Lc E1 E2. assert (LS : zlen (slice y 0 (N + - Q)) = N - Q) by (rewrite zlen_slice by lia; lia).
      rewrite assign_ok by lia. f_equal. apply (znth_ext zB); [rewrite assigned_len, zlen_map_range by lia; lia|].
      intros k Hk. rewrite assigned_len in Hk by lia. rewrite assigned_nth by lia. rewrite znth_map_range by lia.
      destruct (Z.leb_spec Q k); simpl.
      - destruct (Z.ltb_spec k N); [|lia]. rewrite znth_slice by lia. rewrite E2 by lia. f_equal. lia.
      - apply E1. lia. }
    rewrite (G T zT t a sT) by (try lia; auto; intros; apply stream_in; auto). cbn [bind].
    rewrite (G A zA x b sA) by (try lia; auto; intros; apply stream_in; auto). reflexivity.
  - assert (Si : s <= N * n - Q) by (unfold s; nia).
    assert (Sx : s < zlen x \/ (zlen x = N * n /\ s = zlen x /\ Q = 0)) by lia.
    destruct (Z.ltb_spec (zlen x) (s + N)) as [S1|S1].
    + unfold window_stop. set (k0 := zlen x - s).
      assert (E : exists a b, match nd with
          | None => Ok (zeros zT N, zeros zA N)
          | Some nd => as_runtime (bind (subscript nt) (fun nt =>
                       bind (assign (zeros zT N) k0 N (slice nt 0 (N - k0))) (fun timeIn =>
                       bind (assign (zeros zA N) k0 N (slice nd 0 (N - k0))) (fun dataIn => Ok (timeIn, dataIn)))))
          end = Ok (a, b) /\ zlen a = N /\ zlen b = N /\ (forall k, k0 <= k < N -> znth zT k a = sT (s + k)) /\ (forall k, k0 <= k < N -> znth zA k b = sA (s + k))).
      { unfold nd, nt, sT, sA, stream in *. destruct q as [[nt0 nd0]|]; cbn [option_map enough subscript bind fst snd] in *.
        - destruct Hq as [P1 P2].
          assert (L1 : zlen (slice nt0 0 (N - k0)) = N - k0) by (rewrite zlen_slice by lia; lia).
          assert (L2 : zlen (slice nd0 0 (N - k0)) = N - k0) by (rewrite zlen_slice by lia; lia).
          rewrite !assign_ok by lia. cbn [bind as_runtime].
          eexists _, _. split; [reflexivity|]. split; [rewrite assigned_len by lia; lia|]. split; [rewrite assigned_len by lia; lia|].
          split; intros k Hk; rewrite assigned_nth by lia;
            destruct (Z.leb_spec k0 k); try lia; destruct (Z.ltb_spec k N); try lia; simpl;
            destruct (Z.ltb_spec (s + k) 0); try lia; destruct (Z.ltb_spec (s + k) (zlen x)); try lia;
            rewrite ?Ht; destruct (Z.ltb_spec (s + k) (zlen x)); try lia; rewrite znth_slice by lia; f_equal; lia.
        - eexists _, _. split; [reflexivity|]. rewrite !zlen_zeros by lia. split; auto. split; auto.
          split; intros k Hk; rewrite znth_zeros; destruct (Z.ltb_spec (s + k) 0); try lia; rewrite ?Ht; destruct (Z.ltb_spec (s + k) (zlen x)); auto; lia. }
      destruct E as (a & b & -> & La & Lb & Ea & Eb). cbn [bind].
      assert (G : forall B (zB : B) (y : list B) (c : list B) (sB : Z -> B), zlen y = zlen x -> zlen c = N -> s <= zlen x -> (forall k, k0 <= k < N -> znth zB k c = sB (s + k)) ->
        (forall j, 0 <= j < zlen y -> sB j = znth zB j y) ->
        assign c 0 k0 (zdrop s y) = Ok (map sB (range s (s + N)))).
      { intros B zB y c sB By Lc Sy E1 E2. assert (LS : zlen (zdrop s y) = k0) by (rewrite zlen_zdrop by lia; lia).
        rewrite assign_ok by lia. f_equal. apply (znth_ext zB); [rewrite assigned_len, zlen_map_range by lia; lia|].
        intros k Hk. rewrite assigned_len in Hk by lia. rewrite assigned_nth by lia. rewrite znth_map_range by lia.
        destruct (Z.leb_spec 0 k); [|lia]; simpl. destruct (Z.ltb_spec k k0).
        - rewrite znth_zdrop by lia. rewrite E2 by lia. f_equal. lia.
        - apply E1. lia. }
      assert (Z1 : zT = zT) by auto.
      destruct (Z.ltb_spec s (zlen x)).
      * rewrite (G T zT t a sT) by (try lia; auto; intros; apply stream_in; auto). cbn [bind].
        rewrite (G A zA x b sA) by (try lia; auto; intros; apply stream_in; auto). reflexivity.
      * f_equal. f_equal; match goal with |- ?l = map ?f _ => idtac end.
        -- apply (znth_ext zT); [rewrite zlen_map_range by lia; lia|]. intros k Hk. rewrite znth_map_range by lia. apply Ea. lia.
        -- apply (znth_ext zA); [rewrite zlen_map_range by lia; lia|]. intros k Hk. rewrite znth_map_range by lia. apply Eb. lia.
    + f_equal. f_equal.
      * apply (znth_ext zT); [rewrite zlen_map_range, zlen_slice by lia; lia|]. intros k Hk. rewrite zlen_slice in Hk by lia.
        rewrite znth_map_range, znth_slice by lia. unfold sT, stream. destruct (Z.ltb_spec (s + k) 0); [lia|]. destruct (Z.ltb_spec (s + k) (zlen t)); [|lia]. f_equal. lia.
      * apply (znth_ext zA); [rewrite zlen_map_range, zlen_slice by lia; lia|]. intros k Hk. rewrite zlen_slice in Hk by lia.
        rewrite znth_map_range, znth_slice by lia. unfold sA, stream. destruct (Z.ltb_spec (s + k) 0); [lia|]. destruct (Z.ltb_spec (s + k) (zlen x)); [|lia]. f_equal. lia.
Qed.

(** The state before pass [i]. *)
Definition done dd (i : Z) (out : pair) : Prop :=
  zlen (fst out) = zlen x /\ zlen (snd out) = zlen x /\
  forall k, 0 <= k < zlen x ->
    znth zT k (fst out) = (if (k / H <? i) && negb (left_out N (zlen x) p q k) then znth zT k t else zT) /\
    znth zA k (snd out) = (if (k / H <? i) && negb (left_out N (zlen x) p q k) then windowed zA N dd sA k else zA).

Lemma passes_app : forall f l1 l2 (o : pair), passes f (l1 ++ l2) o = bind (passes f l1 o) (passes f l2).
Proof. intros f l1. induction l1 as [|i l1 IH]; intros l2 o; simpl; auto. destruct (f i o); simpl; auto. Qed.

Lemma block_of : forall k i, k / H = i <-> H * i <= k < H * i + H.
Proof.
  intros k i. split; intro E.
  - subst i. pose proof (Z.div_mod k H ltac:(lia)). pose proof (Z.mod_pos_bound k H HH). lia.
  - symmetry. apply (Z.div_unique k H i (k - H * i)); lia.
Qed.

Lemma absent_map : forall X Y (f : X -> Y) o, absent (option_map f o) = match o with None => true | Some _ => false end.
Proof. intros X Y f [v|]; reflexivity. Qed.

Lemma pass_ok : forall dd i out, (forall y, zlen y = N -> zlen (dd y) = N) -> 0 <= i <= 2 * n -> enough (H * i - Q + N - zlen x) q -> done dd i out ->
  exists out', pass zT zA dd N n t x pt pd nt nd i out = Ok out' /\ done dd (i + 1) out'.
Proof.
  intros dd i [oT oD] Hdd Hi Hq (LT & LD & O). simpl in LT, LD, O. unfold pass. rewrite N2, N4, window_ok by auto. cbn [bind].
  pose proof Q_bounds as [Q0 Q1]. pose proof len_bounds as L.
  set (s := H * i - Q). set (wT := map sT (range s (s + N))). set (wA := map sA (range s (s + N))).
  assert (LwT : zlen wT = N) by (unfold wT; rewrite zlen_map_range by (unfold N; lia); lia).
  assert (LwA : zlen wA = N) by (unfold wA; rewrite zlen_map_range by (unfold N; lia); lia).
  unfold pd at 1, nd at 1. rewrite !absent_map.
  assert (LO : forall k, k / H = i -> left_out N (zlen x) p q k =
     ((i =? 0) && match p with None => true | Some _ => false end) || ((i =? 2 * n) && match q with None => true | Some _ => false end)).
  { intros k E. unfold left_out. rewrite N2, E, Hx. destruct (Z.ltb_spec (2 * n) i); [lia|]. rewrite orb_false_r. reflexivity. }
  assert (SKIP : ((i =? 0) && match p with None => true | Some _ => false end) || ((i =? 2 * n) && match q with None => true | Some _ => false end) = true -> done dd (i + 1) (oT, oD)).
  { intro E. split; auto. split; auto. simpl. intros k Hk. destruct (O k Hk) as [O1 O2]. rewrite O1, O2.
    destruct (Z.eq_dec (k / H) i) as [Ek|Ek].
    - rewrite (LO k Ek), E. rewrite !andb_false_r. auto.
    - replace (k / H <? i + 1) with (k / H <? i) by lia. auto. }
  destruct ((i =? 0) && match p with None => true | Some _ => false end) eqn:C1; [eexists; split; [reflexivity|apply SKIP; reflexivity]|].
  destruct ((i =? 2 * n) && match q with None => true | Some _ => false end) eqn:C2; [eexists; split; [reflexivity|apply SKIP; reflexivity]|].
  rewrite LD. set (stop := H * i + H - (if zlen x <=? H * i + H then H * i + H - zlen x else 0)).
  set (dstop := Q + H - (if zlen x <=? H * i + H then H * i + H - zlen x else 0)).
  assert (B : stop = Z.min (H * i + H) (zlen x)) by (unfold stop; destruct (Z.leb_spec (zlen x) (H * i + H)); lia).
  assert (B' : dstop = Q + (stop - H * i)) by (unfold dstop, stop; lia).
  assert (Hs : H * i <= zlen x) by (unfold N in L; nia).
  assert (SL : forall X (w : list X), zlen w = N -> zlen (slice w Q dstop) = stop - H * i).
  { intros X w Lw. rewrite zlen_slice by lia. rewrite Lw. unfold N. lia. }
  assert (Ldd : zlen (dd wA) = N) by auto.
  rewrite assign_ok by (rewrite ?SL by auto; nia). cbn [bind].
  rewrite assign_ok by (rewrite ?SL by auto; nia). cbn [bind].
  eexists. split; [reflexivity|].
  assert (A1 : 0 <= H * i <= stop) by nia. assert (A2 : stop <= zlen oT) by lia. assert (A3 : stop <= zlen oD) by lia.
  unfold done. cbn [fst snd]. rewrite !assigned_len by (rewrite ?SL by auto; auto). split; auto. split; auto.
  intros k Hk. rewrite !assigned_nth by (rewrite ?SL by auto; auto; lia).
  destruct (Z.eq_dec (k / H) i) as [Ek|Ek].
  - rewrite (LO k Ek), Ek. replace (i <? i + 1) with true by lia. simpl. apply block_of in Ek.
    replace ((H * i <=? k) && (k <? stop)) with true by lia.
    rewrite !znth_slice by lia. split.
    + unfold wT. rewrite znth_map_range by lia. unfold sT, stream. replace (s + (k - H * i + Q)) with k by (unfold s; lia).
      destruct (Z.ltb_spec k 0); [lia|]. destruct (Z.ltb_spec k (zlen t)); [auto|lia].
    + unfold windowed. rewrite N2, N4. replace (k / H) with i by (symmetry; apply block_of; lia). fold s. fold wA. f_equal. unfold s. lia.
  - assert (~ (H * i <= k < H * i + H)) by (intro; apply Ek, block_of; auto).
    replace ((H * i <=? k) && (k <? stop)) with false by lia.
    replace (k / H <? i + 1) with (k / H <? i) by lia. apply O. auto.
Qed.

Lemma passes_ok : forall dd m, (forall y, zlen y = N -> zlen (dd y) = N) -> 0 <= m <= 2 * n + 1 -> (forall i, 0 <= i < m -> enough (H * i - Q + N - zlen x) q) ->
  exists out', passes (pass zT zA dd N n t x pt pd nt nd) (range 0 m) (zeros zT (zlen x), zeros zA (zlen x)) = Ok out' /\ done dd m out'.
Proof.
  intros dd m Hdd Hm Hq. replace m with (Z.of_nat (Z.to_nat m)) in * by lia. revert Hm Hq. induction (Z.to_nat m) as [|j IH]; intros Hm Hq.
  - eexists. split; [reflexivity|]. pose proof (zlen_nonneg x). split; [apply zlen_zeros; lia|]. split; [apply zlen_zeros; lia|]. intros k Hk. cbn [fst snd].
    assert (0 <= k / H) by (apply Z.div_pos; lia). replace (k / H <? Z.of_nat 0) with false by lia. cbn [andb]. rewrite !znth_zeros. auto.
  - destruct IH as (o & E & D0); [lia|intros; apply Hq; lia|]. replace (Z.of_nat (S j)) with (Z.of_nat j + 1) in * by lia. rewrite range_snoc by lia.
    rewrite passes_app, E. cbn [bind passes]. destruct (pass_ok dd (Z.of_nat j) o Hdd ltac:(lia) ltac:(apply Hq; lia) D0) as (o1 & -> & D1). exists o1. auto.
Qed.

Lemma coherent_ok : forall dd, enough (N * n + N - Q - zlen x) q -> (forall y, zlen y = N -> zlen (dd y) = N) ->
  exists oT oD, coherent_with zT zA N dd t x pt pd nt nd = Ok (oT, oD) /\ zlen oT = zlen x /\ zlen oD = zlen x /\
  forall k, 0 <= k < zlen x ->
    znth zT k oT = (if left_out N (zlen x) p q k then zT else znth zT k t) /\
    znth zA k oD = (if left_out N (zlen x) p q k then zA else windowed zA N dd sA k).
Proof.
  intros dd Hq Hdd. unfold coherent_with. destruct (Z.eqb_spec N 0); [unfold N in *; lia|]. rewrite Hx. destruct (Z.eqb_spec n 0); [lia|].
  destruct (passes_ok dd (2 * n + 1) Hdd) as ([oT oD] & E & LT & LD & O); [lia| |].
  { intros i Hi. revert Hq. clear - HH Hi. unfold enough. destruct q as [[a b]|]; auto. unfold N. nia. }
  exists oT, oD. split; auto. split; auto. split; auto. intros k Hk. destruct (O k Hk) as [O1 O2]. cbn [fst snd] in O1, O2. rewrite O1, O2.
  destruct (Z.ltb_spec (k / H) (2 * n + 1)); cbn [andb].
  - destruct (left_out N (zlen x) p q k); cbn [negb]; auto.
  - assert (E0 : left_out N (zlen x) p q k = true). { unfold left_out. rewrite N2, Hx. replace (2 * n <? k / H) with true by lia. apply orb_true_r. }
    rewrite E0. auto.
Qed.
End W.
End Coherent.
