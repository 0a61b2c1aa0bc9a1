(** Proofs about start times. *)
From Coq Require Import Ascii String.
From Coq Require Import List ZArith Bool QArith Qround Qabs Qpower Lqa Lia.
From Verif Require Import M_SdfTime S_SdfTime P_Num P_Str P_Bar P_Sdf P_SdfBack P_Flt P_Time P_Cal P_SdfTime.
Import ListNotations.
Open Scope Z_scope.
Ltac Zify.zify_post_hook ::= Z.div_mod_to_equations.

(** ** Digits *)
Lemma digit_iff : forall c, is_digit c = true <-> 48 <= c <= 57.
Proof. intro c. unfold is_digit. rewrite andb_true_iff, !Z.leb_le. tauto. Qed.
Lemma all_digits_iff : forall f, all_digits f <-> Forall (fun c => is_digit c = true) f.
Proof. intro f. unfold all_digits. split; apply Forall_impl; intros c; apply digit_iff. Qed.
Lemma pad_spec : forall n v, 0 <= v -> length (pad n v) = n /\ all_digits (pad n v) /\ dval (pad n v) = v mod 10 ^ Z.of_nat n.
Proof.
  induction n as [|n IH]; intros v V; cbn [pad]; [repeat split; [constructor|cbn [Z.of_nat]; rewrite Z.pow_0_r, Z.mod_1_r; reflexivity]|].
  destruct (IH (v / 10)) as (A & B & C); [apply Z.div_pos; lia|]. rewrite app_length. cbn [length]. split; [lia|]. split.
  - apply Forall_app. split; auto. constructor; [|constructor]. clear. lia.
  - rewrite dval_app, C. change (dval [48 + v mod 10]) with (10 * 0 + (48 + v mod 10 - 48)). cbn [length]. change (10 ^ Z.of_nat 1) with 10.
    rewrite Nat2Z.inj_succ, Z.pow_succ_r by lia. rewrite (Z.rem_mul_r v 10) by (try apply Z.pow_nonzero; lia). lia.
Qed.
Lemma dval_inj : forall a b, all_digits a -> all_digits b -> length a = length b -> dval a = dval b -> a = b.
Proof.
  intro a. induction a as [|x a IH] using rev_ind; intros b A B L V.
  - destruct b; [auto|discriminate].
  - destruct b as [|y b _] using rev_ind; [rewrite app_length in L; cbn in L; lia|]. rewrite !app_length in L. cbn [length] in L.
    apply Forall_app in A, B. destruct A as [A1 A2], B as [B1 B2]. inversion A2; inversion B2; subst. rewrite !dval_app in V. cbn [length] in V. change (10 ^ Z.of_nat 1) with 10 in V.
    change (dval [x]) with (10 * 0 + (x - 48)) in V. change (dval [y]) with (10 * 0 + (y - 48)) in V. rewrite (IH b) by (auto; lia). f_equal. f_equal. lia.
Qed.
Lemma zpad_pad : forall n v, (0 < n)%nat -> 0 <= v < 10 ^ Z.of_nat n -> zpad n v = pad n v.
Proof.
  intros n v N V. destruct (zpad_spec n v N V) as (A & B & C). destruct (pad_spec n v ltac:(lia)) as (D & E & F). apply dval_inj; [apply all_digits_iff; auto|auto|congruence|]. rewrite F, C, Z.mod_small by auto. reflexivity.
Qed.
Lemma fraction_dval : forall f, (fraction f == inject_Z (dval f) / inject_Z (10 ^ Z.of_nat (length f)))%Q.
Proof.
  induction f as [|c f IH]; [reflexivity|]. cbn [fraction length]. rewrite IH. change (c :: f) with ([c] ++ f). rewrite dval_app. change (dval [c]) with (10 * 0 + (c - 48)). rewrite Nat2Z.inj_succ, Z.pow_succ_r by lia.
  replace (10 * 0 + (c - 48)) with (c - 48) by lia. rewrite inject_Z_plus, !inject_Z_mult. change (inject_Z 10) with 10%Q. field.
  intro X. change 0%Q with (inject_Z 0) in X. rewrite inject_Z_injective in X. pose proof (Z.pow_pos_nonneg 10 (Z.of_nat (length f)) ltac:(lia) ltac:(lia)). lia.
Qed.
Lemma digit_val : forall s, all_digits s -> 0 <= dval s < 10 ^ Z.of_nat (length s).
Proof.
  intro s. induction s as [|c s IH] using rev_ind; intro F; [cbn; lia|]. apply Forall_app in F. destruct F as [F1 F2]. inversion F2; subst.
  rewrite dval_app, app_length. cbn [length]. rewrite Nat2Z.inj_add, Z.pow_add_r by lia. change (10 ^ Z.of_nat 1) with 10. change (dval [c]) with (10 * 0 + (c - 48)). specialize (IH F1). lia.
Qed.
Lemma fraction_six : forall f, all_digits f -> (length f <= 6)%nat -> exists n, 0 <= n <= 999999 /\ (1000000 * fraction f == inject_Z n)%Q.
Proof.
  intros f F L. pose proof (digit_val f F) as D. exists (dval f * 10 ^ (6 - Z.of_nat (length f))).
  assert (P : 1000000 = 10 ^ Z.of_nat (length f) * 10 ^ (6 - Z.of_nat (length f))) by (rewrite <- Z.pow_add_r by lia; replace (Z.of_nat (length f) + (6 - Z.of_nat (length f))) with 6 by lia; reflexivity).
  pose proof (Z.pow_pos_nonneg 10 (Z.of_nat (length f)) ltac:(lia) ltac:(lia)). pose proof (Z.pow_pos_nonneg 10 (6 - Z.of_nat (length f)) ltac:(lia) ltac:(lia)). split.
  - set (a := 10 ^ Z.of_nat (length f)) in *. set (b := 10 ^ (6 - Z.of_nat (length f))) in *. clearbody a b. split; [nia|]. assert (dval f * b <= (a - 1) * b) by nia. nia.
  - rewrite fraction_dval. change 1000000%Q with (inject_Z 1000000). rewrite P at 1. rewrite !inject_Z_mult. field. intro X. change 0%Q with (inject_Z 0) in X. rewrite inject_Z_injective in X. lia.
Qed.

(** ** Reading numbers *)
Definition no_digit (r : str) : Prop := match r with [] => True | c :: _ => is_digit c = false end.
Lemma num_digits : forall v s, num v s -> all_digits s /\ (1 <= length s <= 2)%nat /\ dval s = v /\ 0 <= v < 100.
Proof.
  intros v s [[V ->]|[V ->]].
  - destruct (pad_spec 2 v ltac:(lia)) as (A & B & C). rewrite A, C. change (10 ^ Z.of_nat 2) with 100. rewrite Z.mod_small by lia. repeat split; auto; lia.
  - repeat split; try (cbn [length]; lia). { constructor; [lia|constructor]. } change (dval [48 + v]) with (10 * 0 + (48 + v - 48)). lia.
Qed.
Lemma digits12_num : forall v s r, num v s -> no_digit r -> digits12 (s ++ r) = Some (v, r).
Proof.
  intros v s r N R. destruct (num_digits v s N) as (A & B & C & _). destruct s as [|a [|b [|? ?]]]; cbn [length] in B; try lia; cbn [app digits12]; inversion A; subst.
  - rewrite (proj2 (digit_iff a)) by auto. change (dval [a]) with (10 * 0 + (a - 48)). destruct r as [|c r]; [reflexivity|]. cbn in R. rewrite R. reflexivity.
  - inversion H2; subst. rewrite !(proj2 (digit_iff _)) by auto. change (dval [a; b]) with (10 * (10 * 0 + (a - 48)) + (b - 48)). reflexivity.
Qed.
Lemma digits4_pad : forall v r, 0 <= v < 10000 -> digits4 (pad 4 v ++ r) = Some (v, r).
Proof.
  intros v r H. destruct (pad_spec 4 v ltac:(lia)) as (A & B & C). change (10 ^ Z.of_nat 4) with 10000 in C. rewrite Z.mod_small in C by lia. destruct (pad 4 v) as [|a [|b [|c [|d [|? ?]]]]]; try discriminate.
  apply all_digits_iff in B. assert (G : forall x, In x [a; b; c; d] -> is_digit x = true) by (apply Forall_forall; auto). cbn [app digits4]. rewrite !G by (cbn; tauto). cbn [andb].
  unfold dval in C. cbn [fold_left] in C. do 2 f_equal. lia.
Qed.
Lemma take_digits_all : forall n s r, all_digits s -> (length s <= n)%nat -> (length s = n \/ no_digit r) -> take_digits n (s ++ r) = (s, r).
Proof.
  induction n as [|n IH]; intros s r F L E; destruct s as [|c s]; cbn [length] in L; try lia; cbn [app take_digits].
  - reflexivity.
  - destruct E as [E|E]; [discriminate|]. destruct r; auto. cbn in E. rewrite E. reflexivity.
  - inversion F; subst. rewrite (proj2 (digit_iff c)) by auto. rewrite IH; [reflexivity|auto|lia|]. destruct E as [E|E]; [left; cbn in E; lia|auto].
Qed.
Definition sec_text (ss f : str) : str := ss ++ match f with [] => [] | _ => 46 :: f end.
Lemma take_second_ok : forall S ss f r, num S ss -> all_digits f -> (length f <= 6)%nat -> match r with [] => True | c :: _ => is_digit c = false /\ c <> 46 end ->
  take_second (sec_text ss f ++ r) = Some (sec_text ss f, r).
Proof.
  intros S ss f r N F L R. destruct (num_digits S ss N) as (A & B & _). unfold take_second, sec_text.
  assert (R' : no_digit r) by (destruct r; cbn; tauto). rewrite <- app_assoc.
  destruct f as [|c f].
  - cbn [app]. rewrite (take_digits_all 2 ss r) by (auto; lia). rewrite app_nil_r. destruct ss as [|a b]; [cbn in B; lia|]. destruct r as [|c r]; [reflexivity|]. destruct (Z.eqb_spec c 46); [lia|]. reflexivity.
  - rewrite (take_digits_all 2 ss) by (auto; try lia; right; reflexivity). destruct ss as [|a b]; [cbn in B; lia|]. change ((46 :: c :: f) ++ r) with (46 :: (c :: f) ++ r). change (46 =? 46) with true. cbv iota. rewrite (take_digits_all 6 (c :: f) r) by auto. reflexivity.
Qed.
Lemma dec_float : forall ss f, all_digits ss -> ss <> [] -> all_digits f -> exists q, parse_float (sec_text ss f) = Some q /\ (q == inject_Z (dval ss) + fraction f)%Q.
Proof.
  intros ss f A B F. unfold parse_float, sec_text.
  assert (G : Forall (fun c => is_digit c = true \/ c = 46) (ss ++ match f with [] => [] | _ => 46 :: f end)).
  { apply all_digits_iff in A, F. apply Forall_app. split; [eapply Forall_impl; [|exact A]; auto|]. destruct f; [constructor|]. constructor; auto. eapply Forall_impl; [|exact F]; auto. }
  rewrite strip_id. 2:{ apply all_trimmed. eapply Forall_impl; [|exact G]. intros x [X | ->]; [apply digit_not_space; auto|reflexivity]. }
  assert (P : exists q, parse_ufix (ss ++ match f with [] => [] | _ => 46 :: f end) = Some q /\ (q == inject_Z (dval ss) + fraction f)%Q).
  { unfold parse_ufix. apply all_digits_iff in A, F. destruct f as [|c f].
    - rewrite app_nil_r. rewrite split1_none by (apply digits_no; auto). destruct ss as [|a b]; [congruence|]. rewrite forallb_digits by auto. rewrite parse_digits_dval by (auto; left; discriminate). eexists. split; [reflexivity|].
      fold (dval (a :: b)). cbn [fraction]. ring.
    - rewrite split1_found by (apply digits_no; auto). rewrite !forallb_digits by auto.
      destruct (ss ++ c :: f) as [|x r] eqn:E; [apply app_eq_nil in E; destruct E; discriminate|].
      cbn [negb andb]. rewrite <- E. rewrite parse_digits_dval; [|apply Forall_app; auto|auto]. eexists. split; [reflexivity|]. fold (dval (ss ++ c :: f)).
      pose proof (Z.pow_pos_nonneg 10 (Z.of_nat (length (c :: f))) ltac:(lia) ltac:(lia)) as T. rewrite Qmake_Qdiv, Z2Pos.id by lia. rewrite fraction_dval, dval_app, inject_Z_plus, inject_Z_mult. field. intro X. change 0%Q with (inject_Z 0) in X. rewrite inject_Z_injective in X. lia. }
  destruct P as (q & P & Q). destruct ss as [|a b] eqn:E; [congruence|]. cbn [app] in *. inversion A; subst. destruct (Z.eqb_spec a 45); [lia|]. destruct (Z.eqb_spec a 43); [lia|].
  exists q. split; [exact P|auto].
Qed.
Lemma second_float : forall S ss f, num S ss -> all_digits f ->
  exists q, py_float (sec_text ss f) = Some (fl q) /\ (q == inject_Z S + fraction f)%Q.
Proof.
  intros S ss f N F. destruct (num_digits S ss N) as (A & B & C & _). destruct (dec_float ss f A) as (q & P & Q); auto; [destruct ss; [cbn in B; lia|discriminate]|]. rewrite C in Q. exists q. unfold py_float. rewrite P. auto.
Qed.
(** What is read: the nearest millisecond of the second. *)
Lemma read_second : forall S v q n, 0 <= S < 60 -> 0 <= n <= 999999 -> (1000000 * v == inject_Z n)%Q -> (q == inject_Z S + v)%Q ->
  Qfloor (fl q) = S /\ exists k, py_round (fl (fl (fl q - inject_Z S) * 1000))%Q = k /\ (Qabs (1000 * v - inject_Z k) <= 1 # 2)%Q /\ 0 <= k <= 1000.
Proof.
  intros S v q n HS N V Q. assert (S0 : (0 <= inject_Z S)%Q) by (apply inj_nonneg; lia). assert (S1 : (inject_Z S <= 59)%Q) by (change 59%Q with (inject_Z 59); rewrite <- Zle_Qle; lia).
  assert (N0 : (0 <= inject_Z n)%Q) by (apply inj_nonneg; lia). assert (N1 : (inject_Z n <= 999999)%Q) by (change 999999%Q with (inject_Z 999999); rewrite <- Zle_Qle; lia).
  destruct (fl_between q 60) as [A1 A2]; [lra|lra|]. unfold u in *. pose proof (fl_in q) as I. pose proof (fl_ge q S ltac:(lia) ltac:(lra)) as A3.
  assert (E : Qfloor (fl q) = S) by (apply floor_eq; lra). split; auto.
  pose proof (F53_frac (fl q) I ltac:(lra)) as X. rewrite E in X. apply fl_exact in X.
  assert (Y : (fl (fl (fl q - inject_Z S) * 1000) == fl ((fl q - inject_Z S) * 1000))%Q) by (rewrite X; reflexivity). set (w := fl (fl (fl q - inject_Z S) * 1000)%Q) in *. set (s := fl q) in *. clearbody w s.
  destruct (fl_between ((s - inject_Z S) * 1000) 1001) as [B1 B2]; [lra|lra|]. unfold u in *. rewrite <- Y in B1, B2. exists (py_round w). split; [reflexivity|].
  pose proof (py_round_spec w) as R. apply Qabs_Qle_condition in R. set (k := py_round w) in *. clearbody k.
  assert (L : 1000 * k - 501 < n < 1000 * k + 501).
  { split; apply injZ_lt; [rewrite inject_Z_minus|rewrite inject_Z_plus]; rewrite inject_Z_mult; change (inject_Z 1000) with 1000%Q; change (inject_Z 501) with 501%Q; lra. }
  assert (L' : 1000 * k - 500 <= n <= 1000 * k + 500) by lia. destruct L' as [L1 L2]. split; [|lia]. rewrite Zle_Qle in L1, L2. rewrite inject_Z_minus in L1. rewrite inject_Z_plus in L2. rewrite inject_Z_mult in L1, L2.
  change (inject_Z 1000) with 1000%Q in *. change (inject_Z 500) with 500%Q in *. apply Qabs_Qle_condition. split; lra.
Qed.

(** ** The whole text *)
Lemma take_month_ok : forall m s r, 1 <= m <= 12 -> month_text m s -> no_digit r -> exists x, take_month (s ++ r) = Some (x, r) /\ (match x with MNum n => Some n | MName n => position 1 n month_names end) = Some m.
Proof.
  intros m s r M [N|N] R.
  - exists (MNum m). unfold take_month. rewrite (digits12_num m s r N R). auto.
  - assert (L : exists a b c, nth (Z.to_nat (m - 1)) letters [] = [a; b; c] /\ position 1 [a; b; c] month_names = Some m).
    { assert (D : m = 1 \/ m = 2 \/ m = 3 \/ m = 4 \/ m = 5 \/ m = 6 \/ m = 7 \/ m = 8 \/ m = 9 \/ m = 10 \/ m = 11 \/ m = 12) by lia. repeat destruct D as [->|D]; try subst m; do 3 eexists; split; reflexivity. }
    destruct L as (a & b & c & E & P). rewrite E in N. inversion N as [|x ? s1 ? N1 T1]; subst. inversion T1 as [|y ? s2 ? N2 T2]; subst. inversion T2 as [|z ? s3 ? N3 T3]; subst. inversion T3; subst. clear N T1 T2 T3.
    assert (H : forall p q, same_letter p q -> is_digit p = false /\ alpha p = true /\ lower p = q).
    { intros p q [Q [-> | ->]]; unfold is_digit, alpha, lower, upper.
      - destruct (Z.leb_spec 48 q), (Z.leb_spec q 57), (Z.leb_spec 65 q), (Z.leb_spec q 90), (Z.leb_spec 97 q), (Z.leb_spec q 122); try lia; auto.
      - destruct (Z.leb_spec 48 (q - 32)), (Z.leb_spec (q - 32) 57), (Z.leb_spec 65 (q - 32)), (Z.leb_spec (q - 32) 90); try lia. cbn [andb orb]. repeat split; lia. }
    destruct (H _ _ N1) as (A1 & A2 & A3), (H _ _ N2) as (B1 & B2 & B3), (H _ _ N3) as (C1 & C2 & C3). exists (MName [a; b; c]). split; [|exact P].
    unfold take_month. cbn [app digits12 map]. rewrite A1, A2, B2, C2, A3, B3, C3. reflexivity.
Qed.
Lemma match_text : forall t f s r0 r, valid_dt t -> time_text t f s -> (r0 = [] \/ r0 = [32]) -> r = [] \/ offset_ok r = true -> 
  exists tz mo ss, match_time (s ++ r0 ++ r) = Some (mkMatch tz (dt_y t) mo (dt_d t) (dt_H t) (dt_M t) (sec_text ss f) r) /\ In tz [[]; tx "UT"; tx "UTC"] /\ num (dt_S t) ss /\
    (match mo with MNum n => Some n | MName n => position 1 n month_names end) = Some (dt_m t).
Proof.
  intros t f s r0 r V (tz & p & q & mo & dd & hh & mm & ss & b & TZ & Hp & Hq & Hb & Hmo & Hdd & Hhh & Hmm & Hss & F & L & ->) R0 R.
  destruct V as (Y & [V1 V2] & _). fold (sec_text ss f). rewrite <- !app_assoc. unfold match_time.
  assert (T : exists z, In z [[]; tx "UT"; tx "UTC"] /\ forall x, take_tz (tz ++ pad 4 (dt_y t) ++ x) = (z, pad 4 (dt_y t) ++ x)).
  { cbn [In] in TZ. destruct TZ as [<-|[<-|[<-|[]]]]; [exists []; split; [cbn; tauto|]|exists (tx "UT"); split; [cbn; tauto|]|exists (tx "UTC"); split; [cbn; tauto|reflexivity]]; intro x;
    destruct (pad_spec 4 (dt_y t) ltac:(lia)) as (A & B & _); destruct (pad 4 (dt_y t)) as [|a1 [|a2 [|a3 [|a4 [|? ?]]]]]; try discriminate; inversion B; subst; assert (U : upper a1 = false) by (unfold upper; destruct (Z.leb_spec 65 a1); [lia|reflexivity]); cbn [app].
    - cbn [take_tz]. rewrite U. reflexivity.
    - reflexivity. }
  destruct T as (z & Z1 & T). rewrite T. rewrite digits4_pad by lia. cbn [obind].
  assert (SP : forall a x, 32 <= a <= 47 -> sep ([a] ++ x) = Some x). { intros a x A. unfold sep. cbn [app]. destruct (Z.leb_spec 32 a), (Z.leb_spec a 47); try lia. reflexivity. }
  assert (ND : forall a x, 32 <= a <= 47 \/ a = 84 \/ a = 58 -> no_digit ([a] ++ x)). { intros a x A. unfold no_digit, is_digit. cbn [app]. destruct (Z.leb_spec 48 a), (Z.leb_spec a 57); try lia; reflexivity. }
  rewrite SP by auto. cbn [obind]. match goal with |- context [take_month (mo ++ ?x)] => destruct (take_month_ok (dt_m t) mo x V1 Hmo) as (y & M1 & M2) end; [apply ND; auto|]. rewrite M1. cbn [obind].
  rewrite SP by auto. cbn [obind]. rewrite (digits12_num (dt_d t) dd) by (auto; apply ND; lia). cbn [obind].
  assert (E1 : forall x, expect [32; 84] ([b] ++ x) = Some x) by (intro; destruct Hb as [-> | ->]; reflexivity). assert (E2 : forall x, expect [58] ([58] ++ x) = Some x) by (intro; reflexivity).
  rewrite E1. cbn [obind]. rewrite (digits12_num (dt_H t) hh) by (auto; apply ND; lia). cbn [obind]. rewrite E2. cbn [obind]. rewrite (digits12_num (dt_M t) mm) by (auto; apply ND; lia). cbn [obind]. rewrite E2. cbn [obind].
  assert (O : match r with [] => True | c :: _ => c = 45 \/ c = 43 end).
  { destruct r as [|c r]; auto. destruct R as [R|R]; [discriminate|]. unfold offset_ok in R. apply andb_true_iff in R. destruct R as [R _]. cbn in R. rewrite !orb_true_iff, !Z.eqb_eq in R. destruct R as [R | [R | R]]; auto. discriminate. }
  assert (O' : match r0 ++ r with [] => True | c :: _ => is_digit c = false /\ c <> 46 end).
  { destruct R0 as [-> | ->]; cbn [app]; [|split; [reflexivity|discriminate]]. destruct r; auto. destruct O; subst; split; (reflexivity || discriminate). }
  rewrite (take_second_ok (dt_S t)) by auto. cbn [obind].
  exists z, y, ss. repeat split; auto. destruct R0 as [-> | ->]; cbn [app].
  - destruct r as [|c r]; [reflexivity|]. destruct (Z.eqb_spec c 32); [lia|]. destruct R as [R|R]; [discriminate|]. rewrite R. reflexivity.
  - change (32 =? 32) with true. cbv iota. destruct r as [|c r]; [reflexivity|]. destruct R as [R|R]; [discriminate|]. rewrite R. reflexivity.
Qed.
Lemma make_dt_ok : forall t, valid_dt t -> make_dt (dt_y t) (dt_m t) (dt_d t) (dt_H t) (dt_M t) (dt_S t) (dt_us t) = inr t.
Proof.
  intros [y m d H M S us] (Y & [V1 V2] & HH & HM & HS & HU). cbn [dt_y dt_m dt_d dt_H dt_M dt_S dt_us] in *. unfold make_dt.
  repeat match goal with |- context [?a <=? ?b] => destruct (Z.leb_spec a b); [|lia] end. reflexivity.
Qed.
Lemma make_dt_us : forall y m d H M S us, 999999 < us -> make_dt y m d H M S us = inl ValueError.
Proof. intros y m d H M S us U. unfold make_dt. destruct (Z.leb_spec us 999999); [lia|]. rewrite !andb_false_r. reflexivity. Qed.
Lemma valid_with : forall t us, valid_dt t -> 0 <= us < 1000000 -> valid_dt (with_us t us).
Proof. intros t us (A & B & C & D & E & _) U. unfold valid_dt, with_us. cbn [dt_y dt_m dt_d dt_H dt_M dt_S dt_us]. tauto. Qed.
(** With [r] an offset or nothing. *)
Lemma parse_text : forall named t f s r0 r, valid_dt t -> time_text t f s -> (r0 = [] \/ r0 = [32]) -> r = [] \/ offset_ok r = true ->
  exists k, (Qabs (1000 * fraction f - inject_Z k) <= 1 # 2)%Q /\ 0 <= k <= 1000 /\
  let local := if k <? 1000 then inr (with_us t (1000 * k)) else inl ValueError in
  parse_time named (s ++ r0 ++ r) = match r with [] => local | _ => match offset_seconds r with inl e => inl e | inr o => match local with inl e => inl e | inr t => shift_dt t o end end end.
Proof.
  intros named t f s r0 r V T R0 R. destruct (match_text t f s r0 r V T R0 R) as (tz & mo & ss & E & TZ & SS & MO).
  assert (F : all_digits f /\ (length f <= 6)%nat) by (destruct T as (? & ? & ? & ? & ? & ? & ? & ? & ? & T); tauto). destruct F as [F L].
  destruct (fraction_six f F L) as (n & N & Q). destruct (second_float (dt_S t) ss f SS F) as (q & P & Q2).
  destruct (read_second (dt_S t) (fraction f) q n) as (R1 & k & R2 & R3 & R4); auto. { destruct V as (_ & _ & _ & _ & V & _). exact V. }
  exists k. split; [auto|]. split; [auto|]. unfold parse_time. rewrite E. cbn [m_second m_month m_offset m_tz m_year m_day m_hour m_minute]. rewrite P, MO. cbv zeta. rewrite R1, R2.
  assert (LC : make_dt (dt_y t) (dt_m t) (dt_d t) (dt_H t) (dt_M t) (dt_S t) (k * 1000) = if k <? 1000 then inr (with_us t (1000 * k)) else inl ValueError).
  { destruct (Z.ltb_spec k 1000); [|apply make_dt_us; lia]. replace (k * 1000) with (1000 * k) by lia. assert (W : valid_dt (with_us t (1000 * k))) by (apply valid_with; auto; lia). exact (make_dt_ok _ W). }
  rewrite LC. assert (B : existsb (str_eqb tz) [[]; tx "UT"; tx "UTC"] = true) by (cbn [In] in TZ; destruct TZ as [<-|[<-|[<-|[]]]]; reflexivity). rewrite B. destruct r; reflexivity.
Qed.

(** ** The time scale *)
Lemma day_number_z : forall y m d, 1 <= m <= 12 -> day_number y m d = mjdz y m d.
Proof.
  intros y m d HM. rewrite mjdz_doy by auto. unfold day_number, dby, doy.
  assert (F : fold_right Z.add 0 (map (fun k => days_in y (Z.of_nat k)) (seq 1 (Z.to_nat (m - 1)))) = dbm m + (if 2 <? m then lp y else 0)) by (months m HM; unfold days_in, lp; destruct (leap_year y); reflexivity).
  rewrite F. lia.
Qed.
Definition dayus := 86400000000.
Definition in_years (T : Z) : bool := (-678575 <=? T / dayus) && (T / dayus <=? 2973483).
Definition dt_of (T : Z) : datetime :=
  let '(y, m, d) := ord2ymd (T / dayus + 678576) in let s := T / 1000000 mod 86400 in mkDT y m d (s / 3600) (s / 60 mod 60) (s mod 60) (T mod 1000000).
Lemma ord2ymd_years : forall n, let '(y, m, d) := ord2ymd (n + 678576) in ((1 <=? y) && (y <=? 9999)) = ((-678575 <=? n) && (n <=? 2973483)).
Proof.
  intro n. pose proof (ord2ymd_ok (n + 678576)) as O. destruct (ord2ymd (n + 678576)) as [[y m] d]. destruct O as [V E]. pose proof (year_range y m d V) as R.
  destruct ((1 <=? y) && (y <=? 9999)) eqn:A, ((-678575 <=? n) && (n <=? 2973483)) eqn:B; auto; rewrite ?andb_true_iff, ?andb_false_iff, ?Z.leb_le, ?Z.leb_gt in *; lia.
Qed.
Lemma dt_of_ok : forall T, in_years T = true -> valid_dt (dt_of T) /\ instant (dt_of T) = T.
Proof.
  intros T I. unfold in_years in I. unfold dt_of. pose proof (ord2ymd_years (T / dayus)) as Y. pose proof (ord2ymd_ok (T / dayus + 678576)) as O. destruct (ord2ymd (T / dayus + 678576)) as [[y m] d]. destruct O as [V E].
  rewrite I in Y. rewrite andb_true_iff, !Z.leb_le in Y. set (s := T / 1000000 mod 86400). assert (S : 0 <= s < 86400) by (unfold s; apply Z.mod_pos_bound; lia).
  split.
  - unfold valid_dt. cbn [dt_y dt_m dt_d dt_H dt_M dt_S dt_us]. split; [lia|]. split; [auto|]. clearbody s. clear - S. pose proof (Z.mod_pos_bound T 1000000 ltac:(lia)). lia.
  - unfold instant, second_of_day. cbn [dt_y dt_m dt_d dt_H dt_M dt_S dt_us]. rewrite day_number_z by (apply V). rewrite E. replace (T / dayus + 678576 - 678576) with (T / dayus) by lia.
    assert (A : s / 3600 * 3600 + s / 60 mod 60 * 60 + s mod 60 = s) by (clearbody s; clear - S; lia). rewrite A.
    assert (B : T / dayus * 86400 + s = T / 1000000). { unfold s, dayus. change 86400000000 with (1000000 * 86400). rewrite <- Z.div_div by lia. pose proof (Z.div_mod (T / 1000000) 86400 ltac:(lia)). lia. }
    rewrite B. pose proof (Z.div_mod T 1000000 ltac:(lia)). lia.
Qed.
Lemma instant_parts : forall t, valid_dt t -> instant t / dayus = day_number (dt_y t) (dt_m t) (dt_d t) /\ in_years (instant t) = true.
Proof.
  intros t (Y & V & HH & HM & HS & HU). pose proof V as V'. destruct V' as [M _]. assert (A : instant t / dayus = day_number (dt_y t) (dt_m t) (dt_d t)).
  { unfold instant, second_of_day, dayus. set (D := day_number _ _ _). clearbody D. clear - HH HM HS HU. lia. }
  split; auto. unfold in_years. rewrite A, day_number_z by auto. pose proof (proj2 (year_range _ _ _ V) Y). rewrite andb_true_iff, !Z.leb_le. lia.
Qed.
Lemma instant_inj : forall t t', valid_dt t -> valid_dt t' -> instant t = instant t' -> t = t'.
Proof.
  intros t t' V V' E. destruct (instant_parts t V) as [A _], (instant_parts t' V') as [B _]. destruct V as (Y & V & HH & HM & HS & HU), V' as (Y' & V' & HH' & HM' & HS' & HU').
  assert (D : day_number (dt_y t) (dt_m t) (dt_d t) = day_number (dt_y t') (dt_m t') (dt_d t')) by congruence.
  unfold instant, second_of_day in E. rewrite D in E. pose proof D as D'. rewrite !day_number_z in D' by (apply V || apply V'). apply mjdz_inj in D'; auto. clear A B D Y Y' V V'. set (N := day_number _ _ _) in *. clearbody N.
  assert (E' : dt_H t = dt_H t' /\ dt_M t = dt_M t' /\ dt_S t = dt_S t' /\ dt_us t = dt_us t') by (clear D'; lia). destruct t as [y1 m1 d1 H1 M1 S1 u1], t' as [y2 m2 d2 H2 M2 S2 u2]. cbn [dt_y dt_m dt_d dt_H dt_M dt_S dt_us] in *. destruct E' as (-> & -> & -> & ->). congruence.
Qed.
Lemma mjdmpm_parts : forall t, valid_dt t -> datetime_to_mjdmpm t = (day_number (dt_y t) (dt_m t) (dt_d t), second_of_day t * 1000 + dt_us t / 1000).
Proof. intros t (_ & V & _ & _ & _ & U). unfold datetime_to_mjdmpm. rewrite date_to_mjd_z, mpm_eq, day_number_z by (auto; apply V). reflexivity. Qed.
Lemma mjdmpm_of : forall T, in_years T = true -> datetime_to_mjdmpm (dt_of T) = (T / dayus, T mod dayus / 1000).
Proof.
  intros T I. destruct (dt_of_ok T I) as [V E]. rewrite mjdmpm_parts by auto. destruct (instant_parts _ V) as [A _]. rewrite E in A. rewrite <- A. f_equal.
  assert (B : T mod dayus = second_of_day (dt_of T) * 1000000 + dt_us (dt_of T)). { rewrite Z.mod_eq by (unfold dayus; lia). rewrite A. rewrite <- E at 1. unfold instant, dayus. lia. }
  rewrite B. destruct V as (_ & _ & _ & _ & _ & U). set (s := second_of_day _). set (us := dt_us _) in *. clearbody s us. clear - U. lia.
Qed.
Lemma shift_dt_ok : forall t o, valid_dt t -> let T := instant t - o * 1000000 in shift_dt t o = if in_years T then inr (dt_of T) else inl OverflowError.
Proof.
  intros t o V T. unfold shift_dt. rewrite date_to_mjd_z, <- day_number_z by (apply V). destruct V as (_ & _ & _ & _ & _ & U).
  set (s := (day_number _ _ _ + 678576) * 86400 + _ + _ + _ - o).
  assert (S : s = T / 1000000 + 678576 * 86400 /\ T mod 1000000 = dt_us t).
  { assert (T = (s - 678576 * 86400) * 1000000 + dt_us t) by (unfold s, T, instant, second_of_day; ring). clearbody s T. clear - H U. lia. } destruct S as [S1 S2].
  assert (D : s / 86400 = T / dayus + 678576 /\ s mod 86400 = T / 1000000 mod 86400). { rewrite S1. unfold dayus. change 86400000000 with (1000000 * 86400). rewrite <- Z.div_div by lia. rewrite Z.div_add, Z.mod_add by lia. auto. }
  destruct D as [-> ->]. unfold dt_of, in_years. pose proof (ord2ymd_years (T / dayus)) as Y. destruct (ord2ymd (T / dayus + 678576)) as [[y m] d]. rewrite Y, S2. reflexivity.
Qed.
Lemma add_us_ok : forall t k, valid_dt t -> let T := instant t + k in add_us t k = if in_years T then inr (dt_of T) else inl OverflowError.
Proof.
  intros t o V T. unfold add_us. rewrite date_to_mjd_z, <- day_number_z by (apply V).
  set (v := (_ * 1000000 + _ + o)).
  assert (S : v = T + 678576 * dayus) by (unfold v, T, instant, second_of_day, dayus; ring).
  assert (D : v / 1000000 / 86400 = T / dayus + 678576 /\ v / 1000000 mod 86400 = T / 1000000 mod 86400 /\ v mod 1000000 = T mod 1000000). { rewrite S. unfold dayus. change 86400000000 with (1000000 * 86400). rewrite <- Z.div_div by lia. replace (T + 678576 * (1000000 * 86400)) with (T + 678576 * 86400 * 1000000) by ring. rewrite !Z.div_add, !Z.mod_add by lia. auto. }
  destruct D as (-> & -> & ->). unfold dt_of, in_years. pose proof (ord2ymd_years (T / dayus)) as Y. destruct (ord2ymd (T / dayus + 678576)) as [[y m] d]. rewrite Y. reflexivity.
Qed.
Lemma fromtimestamp_ok : forall x, let T := py_round (x * 1000000) + 40587 * dayus in fromtimestamp x = if in_years T then Ok (dt_of T) else Raise ValueError.
Proof.
  intros x T. unfold fromtimestamp. set (v := py_round (x * 1000000)) in *.
  assert (D : v / 1000000 / 86400 + 719163 = T / dayus + 678576 /\ v / 1000000 mod 86400 = T / 1000000 mod 86400 /\ v mod 1000000 = T mod 1000000).
  { unfold T, dayus. change 86400000000 with (1000000 * 86400). rewrite <- Z.div_div by lia. replace (v + 40587 * (1000000 * 86400)) with (v + 40587 * 86400 * 1000000) by ring. rewrite !Z.div_add, !Z.mod_add by lia. repeat split. lia. }
  destruct D as (-> & -> & ->). unfold dt_of, in_years. pose proof (ord2ymd_years (T / dayus)) as Y. destruct (ord2ymd (T / dayus + 678576)) as [[y m] d]. rewrite Y. reflexivity.
Qed.

(** ** Offsets *)
Lemma pad2 : forall v, 0 <= v < 100 -> exists a b, pad 2 v = [a; b] /\ 48 <= a <= 57 /\ 48 <= b <= 57 /\ 10 * (a - 48) + (b - 48) = v.
Proof. intros v V. exists (48 + v / 10 mod 10), (48 + v mod 10). split; [reflexivity|]. lia. Qed.
Lemma offset_read : forall h m (colon : bool) sgn, 0 <= h < 24 -> 0 <= m < 60 -> sgn = 43 \/ sgn = 45 ->
  let r := sgn :: pad 2 h ++ (if colon then [58] else []) ++ pad 2 m in
  offset_ok r = true /\ offset_seconds r = inr ((h * 3600 + m * 60) * (if sgn =? 45 then -1 else 1)).
Proof.
  intros h m colon sgn H M S r. destruct (pad2 h ltac:(lia)) as (a & b & E1 & A & B & V1). destruct (pad2 m ltac:(lia)) as (c & d & E2 & C & D & V2). unfold r. rewrite E1, E2. clear E1 E2 r.
  assert (I : forall x, 48 <= x <= 57 -> is_digit x = true) by (intros; apply digit_iff; auto). assert (J : forall x, 48 <= x <= 57 -> (x =? 58) = false) by (intros; apply Z.eqb_neq; lia).
  assert (P : forall x y, 48 <= x <= 57 -> 48 <= y <= 57 -> parse_int [x; y] = Some (10 * (x - 48) + (y - 48))).
  { intros x y X Y. rewrite parse_int_digits; [reflexivity|repeat constructor; auto|discriminate]. }
  split.
  - unfold offset_ok. assert (X : existsb (Z.eqb sgn) [45; 43] = true) by (destruct S; subst; reflexivity). rewrite X. cbn [andb existsb firstn skipn app].
    destruct colon; cbn [app skipn firstn length Z.of_nat Pos.of_succ_nat Pos.succ forallb]; rewrite !I by auto; rewrite ?(J c), ?Z.eqb_refl by auto; cbn; rewrite ?I by auto; rewrite ?orb_true_r; reflexivity.
  - unfold offset_seconds. assert (X : drop_char 58 (sgn :: [a; b] ++ (if colon then [58] else []) ++ [c; d]) = [sgn; a; b; c; d]).
    { unfold drop_char. assert (sgn <> 58) by lia. destruct colon; cbn [app filter]; repeat match goal with |- context [?x =? 58] => destruct (Z.eqb_spec x 58); try lia end; reflexivity. }
    rewrite X. cbn [skipn firstn nth]. rewrite !P by auto. rewrite V1, V2.
    set (o := (h * 3600 + m * 60) * _). assert (O : -86400 < o < 86400) by (unfold o; destruct (sgn =? 45); lia). destruct (Z.ltb_spec (-86400) o), (Z.ltb_spec o 86400); try lia. reflexivity.
Qed.

(** ** Start times *)
Lemma instant_with : forall t us, instant (with_us t us) = instant t - dt_us t + us.
Proof. intros t us. unfold instant, with_us, second_of_day. cbn [dt_y dt_m dt_d dt_H dt_M dt_S dt_us]. lia. Qed.
Lemma mjdmpm_instant : forall t, valid_dt t -> datetime_to_mjdmpm t = (instant t / dayus, instant t mod dayus / 1000).
Proof.
  intros t V. destruct (instant_parts t V) as [_ I]. destruct (dt_of_ok _ I) as [V' E]. rewrite <- (mjdmpm_of _ I). f_equal. apply instant_inj; auto.
Qed.
Lemma set_text : forall named t f s, valid_dt t -> time_text t f s ->
  exists k, (Qabs (1000 * fraction f - inject_Z k) <= 1 # 2)%Q /\ 0 <= k <= 1000 /\
  set_start named s = if k <? 1000 then let T := instant t - dt_us t + 1000 * k in inr (T / dayus, T mod dayus / 1000) else inl ValueError.
Proof.
  intros named t f s V T. destruct (parse_text named t f s [] [] V T (or_introl eq_refl) (or_introl eq_refl)) as (k & A & B & C). exists k. split; [auto|]. split; [auto|].
  rewrite !app_nil_r in C. unfold set_start. rewrite C. cbv zeta. destruct (Z.ltb_spec k 1000); [|reflexivity]. rewrite mjdmpm_instant by (apply valid_with; auto; lia). rewrite instant_with. reflexivity.
Qed.
Lemma num_pad : forall v, 0 <= v < 100 -> num v (pad 2 v). Proof. intros v H. left. auto. Qed.
Lemma days_le : forall y m, days_in y m <= 31.
Proof. intros y m. unfold days_in. destruct (m =? 2), (leap_year y), ((m =? 4) || (m =? 6) || (m =? 9) || (m =? 11)); lia. Qed.
Lemma stamp_text : forall c t f, valid_dt t -> 32 <= c <= 47 -> all_digits f -> (1 <= length f <= 6)%nat ->
  time_text t f (tx "UTC " ++ zpad 4 (dt_y t) ++ c :: zpad 2 (dt_m t) ++ c :: zpad 2 (dt_d t) ++ 32 :: zpad 2 (dt_H t) ++ 58 :: zpad 2 (dt_M t) ++ 58 :: zpad 2 (dt_S t) ++ 46 :: f).
Proof.
  intros c t f (Y & [V1 V2] & HH & HM & HS & HU) C F L. pose proof (days_le (dt_y t) (dt_m t)).
  exists (tx "UTC "), c, c, (pad 2 (dt_m t)), (pad 2 (dt_d t)), (pad 2 (dt_H t)), (pad 2 (dt_M t)), (pad 2 (dt_S t)), 32.
  rewrite !zpad_pad by lia. split; [cbn; tauto|]. split; [auto|]. split; [auto|]. split; [auto|]. split; [left; apply num_pad; lia|]. do 4 (split; [apply num_pad; lia|]). split; [auto|]. split; [lia|].
  destruct f as [|x f]; [cbn in L; lia|]. reflexivity.
Qed.
Lemma fraction_pad : forall n v, 0 <= v < 10 ^ Z.of_nat n -> (fraction (pad n v) == inject_Z v / inject_Z (10 ^ Z.of_nat n))%Q.
Proof. intros n v V. destruct (pad_spec n v ltac:(lia)) as (A & B & C). rewrite fraction_dval, A, C, Z.mod_small by auto. reflexivity. Qed.

(** The date and time of a start in double precision. *)
Lemma start_fl : forall mjd mpm, -678575 <= mjd <= 2973483 -> 0 <= mpm < 86400000 -> 
  exists d, -60 <= d <= 60 /\ (mpm mod 1000 = 0 -> d = 0) /\ mjdmpm_to_datetime_fl mjd mpm = fromtimestamp (fl (fl (fl (inject_Z mjd * 86400) + fl (inject_Z mpm / 1000)) - 3506716800))%Q /\
  py_round (fl (fl (fl (inject_Z mjd * 86400) + fl (inject_Z mpm / 1000)) - 3506716800) * 1000000)%Q + 40587 * dayus = (mjd * 86400000 + mpm) * 1000 + d.
Proof.
  intros mjd mpm J M. assert (A1 : (fl (inject_Z mjd * 86400) == inject_Z (mjd * 86400))%Q).
  { rewrite <- (fl_int (mjd * 86400)) by lia. rewrite inject_Z_mult. reflexivity. }
  assert (J1 : (inject_Z (-678575) <= inject_Z mjd)%Q) by (rewrite <- Zle_Qle; lia). assert (J2 : (inject_Z mjd <= inject_Z 2973483)%Q) by (rewrite <- Zle_Qle; lia). change (inject_Z (-678575)) with (-678575)%Q in J1. change (inject_Z 2973483) with 2973483%Q in J2.
  assert (M1 : (0 <= inject_Z mpm)%Q) by (apply inj_nonneg; lia). assert (M2 : (inject_Z mpm <= inject_Z 86399999)%Q) by (rewrite <- Zle_Qle; lia). change (inject_Z 86399999) with 86399999%Q in M2.
  assert (D : (inject_Z mpm / 1000 == (1 # 1000) * inject_Z mpm)%Q) by field.
  set (c := fl (fl (fl (inject_Z mjd * 86400) + fl (inject_Z mpm / 1000)) - 3506716800)%Q) in *. set (d := (py_round (c * 1000000) + 40587 * dayus - (mjd * 86400000 + mpm) * 1000)). exists d. split; [|split; [|split; [reflexivity|unfold d; lia]]].
  - unfold c in d. clear c. destruct (fl_between (inject_Z mpm / 1000) 86400) as [B1 B2]; [lra|lra|]. unfold u in *. set (a := fl (inject_Z mpm / 1000)) in *. 
    assert (A2 : (fl (inject_Z mjd * 86400) == inject_Z mjd * 86400)%Q) by (rewrite A1, inject_Z_mult; reflexivity). set (m0 := fl (inject_Z mjd * 86400)) in *. clearbody m0 a.
    pose proof (fl_close (m0 + a) 257000000000) as C1. pose proof (fl_close (fl (m0 + a) - 3506716800) 257000000000) as C2. set (b := fl (m0 + a)) in *. set (c := fl (b - 3506716800)) in *. clearbody b c. unfold u in *.
    assert (C1' : (Qabs (b - (m0 + a)) <= 257000000000 * (1 # 9007199254740992))%Q) by (apply C1, Qabs_Qle_condition; split; lra). apply Qabs_Qle_condition in C1'.
    assert (C2' : (Qabs (c - (b - 3506716800)) <= 257000000000 * (1 # 9007199254740992))%Q) by (apply C2, Qabs_Qle_condition; split; lra). apply Qabs_Qle_condition in C2'.
    pose proof (py_round_spec (c * 1000000)) as R. apply Qabs_Qle_condition in R. set (z := py_round _) in *. clearbody z.
    assert (L : -61 < d < 61).
    { unfold d, dayus. split; apply injZ_lt; rewrite inject_Z_minus, inject_Z_plus, !inject_Z_mult, inject_Z_plus, inject_Z_mult; change (inject_Z 86400000) with 86400000%Q; change (inject_Z 1000) with 1000%Q; change (inject_Z 86400000000) with 86400000000%Q; change (inject_Z 40587) with 40587%Q; change (inject_Z (-61)) with (-61)%Q; change (inject_Z 61) with 61%Q; lra. }
    lia.
  - intro Z. assert (K : mpm = 1000 * (mpm / 1000)) by lia. set (k := mpm / 1000) in *. clearbody k.
    assert (B : (fl (inject_Z mpm / 1000) == inject_Z k)%Q). { rewrite <- (fl_int k) by lia. rewrite K, inject_Z_mult. apply fl_comp. change (inject_Z 1000) with 1000%Q. field. }
    assert (C : (c == inject_Z (mjd * 86400 + k - 3506716800))%Q).
    { unfold c. rewrite A1, B, <- inject_Z_plus, (fl_int (mjd * 86400 + k)) by lia. change 3506716800%Q with (inject_Z 3506716800). rewrite <- inject_Z_minus, fl_int by lia. reflexivity. }
    unfold d, dayus. rewrite (py_round_near (c * 1000000) ((mjd * 86400 + k - 3506716800) * 1000000)); [lia|]. rewrite C, inject_Z_mult. change (inject_Z 1000000) with 1000000%Q. setoid_replace (inject_Z (mjd * 86400 + k - 3506716800) * 1000000 - inject_Z (mjd * 86400 + k - 3506716800) * 1000000)%Q with 0%Q by ring. reflexivity.
Qed.
Lemma start_instant : forall mjd mpm d, -678575 <= mjd <= 2973483 -> 0 <= mpm < 86400000 -> -60 <= d <= 60 -> (mpm mod 1000 = 0 -> d = 0) ->
  let T := (mjd * 86400000 + mpm) * 1000 + d in in_years T = true /\ T mod 1000000 = mpm mod 1000 * 1000 + d.
Proof.
  intros mjd mpm d J M D Z T. split.
  - unfold in_years. assert (E : T / dayus = mjd) by (unfold T, dayus; clear - M D Z; lia). rewrite E. rewrite andb_true_iff, !Z.leb_le. lia.
  - unfold T. clear - M D Z. lia.
Qed.
Lemma back_parts : forall mjd mpm, 0 <= mpm < 86400000 -> ((mjd * 86400000 + mpm) * 1000 / dayus, (mjd * 86400000 + mpm) * 1000 mod dayus / 1000) = (mjd, mpm).
Proof.
  intros mjd mpm M. assert (A : (mjd * 86400000 + mpm) * 1000 / dayus = mjd) by (unfold dayus; lia). assert (B : (mjd * 86400000 + mpm) * 1000 mod dayus = mpm * 1000) by (unfold dayus; lia). rewrite A, B, Z.div_mul by lia. reflexivity.
Qed.
Lemma get_set_start : forall named mjd mpm, -678575 <= mjd <= 2973483 -> 0 <= mpm < 86400000 ->
  exists s, get_start mjd mpm = inr s /\ set_start named s = inr (mjd, mpm).
Proof.
  intros named mjd mpm J M. destruct (start_fl mjd mpm J M) as (d & D & Z & E1 & E2). destruct (start_instant mjd mpm d J M D Z) as [I U]. rewrite <- E2 in I, U.
  unfold get_start. rewrite E1, fromtimestamp_ok. cbv zeta. rewrite E2 in *. rewrite I. eexists. split; [reflexivity|].
  set (T := (mjd * 86400000 + mpm) * 1000 + d) in *. destruct (dt_of_ok T I) as [V W]. assert (X : dt_us (dt_of T) = T mod 1000000) by (unfold dt_of; destruct (ord2ymd (T / dayus + 678576)) as [[? ?] ?]; reflexivity).
  assert (B : 0 <= dt_us (dt_of T) < 1000000) by (destruct V as (_ & _ & _ & _ & _ & V); exact V). rewrite X in B.
  destruct (pad_spec 6 (T mod 1000000) ltac:(lia)) as (P1 & P2 & _).
  unfold stamp. rewrite X, (zpad_pad 6) by (auto; lia). destruct (set_text named (dt_of T) (pad 6 (T mod 1000000)) _ V (stamp_text 47 (dt_of T) (pad 6 (T mod 1000000)) V ltac:(lia) P2 ltac:(rewrite P1; lia))) as (k & K1 & K2 & K3). rewrite K3. clear K3.
  rewrite W, X. rewrite fraction_pad in K1 by auto. change (inject_Z (10 ^ Z.of_nat 6)) with 1000000%Q in K1. apply Qabs_Qle_condition in K1.
  set (us := T mod 1000000) in *. assert (Q : (1000 * (inject_Z us / 1000000) == inject_Z us / 1000)%Q) by field. rewrite Q in K1.
  assert (R : (inject_Z us / 1000 == (1 # 1000) * inject_Z us)%Q) by field. rewrite R in K1.
  assert (L : 1000 * k - 501 < us < 1000 * k + 501). { split; apply injZ_lt; [rewrite inject_Z_minus|rewrite inject_Z_plus]; rewrite inject_Z_mult; change (inject_Z 1000) with 1000%Q; change (inject_Z 501) with 501%Q; lra. }
  assert (K : k = mpm mod 1000). { rewrite U in L. clear - L Z D M. lia. }
  assert (k < 1000) by (clear - K; lia). destruct (Z.ltb_spec k 1000); [|lia]. assert (TT : T - us + 1000 * k = (mjd * 86400000 + mpm) * 1000) by (unfold T in *; lia). rewrite TT. cbv zeta. rewrite back_parts by auto. reflexivity.
Qed.

(** ** The start time of parse_sdf *)
Lemma fl_rel : forall x, (0 <= x)%Q -> (x * (1 - u) <= fl x /\ fl x <= x * (1 + u))%Q.
Proof. intros x X. destruct (fl_between x x X ltac:(lra)). lra. Qed.
Lemma mjd_float_close : forall mjd mpm, 0 <= mjd <= 2973483 -> 0 <= mpm < 86400000 ->
  (Qabs (mjd_float mjd mpm - (inject_Z mjd + inject_Z mpm / 86400000)) <= 34 # 100000000000)%Q /\ (inject_Z mjd <= mjd_float mjd mpm)%Q.
Proof.
  intros mjd mpm J M. unfold mjd_float. assert (J1 : (0 <= inject_Z mjd)%Q) by (apply inj_nonneg; lia). assert (J2 : (inject_Z mjd <= inject_Z 2973483)%Q) by (rewrite <- Zle_Qle; lia). change (inject_Z 2973483) with 2973483%Q in J2.
  assert (M1 : (0 <= inject_Z mpm)%Q) by (apply inj_nonneg; lia). assert (M2 : (inject_Z mpm <= inject_Z 86399999)%Q) by (rewrite <- Zle_Qle; lia). change (inject_Z 86399999) with 86399999%Q in M2.
  set (q := inject_Z mpm) in *. clearbody q. set (j := inject_Z mjd) in *.
  assert (D : forall x n, (x / n == (/ n) * x)%Q) by (intros; unfold Qdiv; ring).
  pose proof (fl_rel (q / 1000)) as F1. rewrite (D q) in F1. change (/ 1000)%Q with (1 # 1000)%Q in F1. destruct F1 as [A1 A2]; [lra|]. rewrite <- (D q) in A1, A2 || idtac.
  assert (E1 : (fl (q / 1000) == fl ((1 # 1000) * q))%Q) by (apply fl_comp; field). rewrite <- E1 in A1, A2. set (a := fl (q / 1000)) in *. clearbody a. clear E1. unfold u in *.
  assert (a0 : (0 <= a)%Q) by lra.
  pose proof (fl_rel (a / 3600)) as F2. assert (Da : (a / 3600 == (1 # 3600) * a)%Q) by field. rewrite Da in F2. assert (E2 : (fl (a / 3600) == fl ((1 # 3600) * a))%Q) by (apply fl_comp; auto). rewrite <- E2 in F2. destruct F2 as [B1 B2]; [lra|]. set (b := fl (a / 3600)) in *. clearbody b. clear E2 Da. unfold u in *.
  assert (b0 : (0 <= b)%Q) by lra.
  pose proof (fl_rel (b / 24)) as F3. assert (Db : (b / 24 == (1 # 24) * b)%Q) by field. rewrite Db in F3. assert (E3 : (fl (b / 24) == fl ((1 # 24) * b))%Q) by (apply fl_comp; auto). rewrite <- E3 in F3. destruct F3 as [C1 C2]; [lra|]. set (c := fl (b / 24)) in *. clearbody c. clear E3 Db. unfold u in *.
  assert (c0 : (0 <= c)%Q) by lra.
  destruct (fl_between (j + c) 2973485) as [G1 G2]; [lra|lra|]. unfold u in *.
  assert (Dq : (q / 86400000 == (1 # 86400000) * q)%Q) by field. split.
  - apply Qabs_Qle_condition. rewrite Dq. split; lra.
  - unfold j. apply fl_ge; [lia|]. fold j. lra.
Qed.
Lemma astro_ok : forall leap e mjd mpm, 0 <= mjd <= 2973483 -> 0 <= mpm < 86400000 -> leap mjd = false -> (Qabs e <= 1 # 10000000000)%Q ->
  exists d, -40 <= d <= 40 /\ 0 <= mpm * 1000 + d < dayus /\ astro_datetime leap e (mjd_float mjd mpm) = inr (dt_of ((mjd * 86400000 + mpm) * 1000 + d)).
Proof.
  intros leap e mjd mpm J M L E. destruct (mjd_float_close mjd mpm J M) as [A B]. unfold astro_datetime. set (x := mjd_float mjd mpm) in *. clearbody x. apply Qabs_Qle_condition in A, E.
  assert (M1 : (0 <= inject_Z mpm)%Q) by (apply inj_nonneg; lia). assert (M2 : (inject_Z mpm <= inject_Z 86399999)%Q) by (rewrite <- Zle_Qle; lia). change (inject_Z 86399999) with 86399999%Q in M2.
  assert (Dq : (inject_Z mpm / 86400000 == (1 # 86400000) * inject_Z mpm)%Q) by field. rewrite Dq in A.
  assert (F : Qfloor x = mjd) by (apply floor_eq; lra). cbv zeta. rewrite F, L. change (inject_Z (86400 * 1000000)) with 86400000000%Q. set (y := (x - inject_Z mjd)%Q) in *. assert (Y : (0 <= y /\ y <= 1)%Q) by (unfold y; lra).
  assert (P : (Qabs (y * e) <= 1 # 10000000000)%Q).
  { apply Qabs_Qle_condition. destruct Y as [Y1 Y2], E as [E1 E2]. assert (H1 : (0 <= y * ((1 # 10000000000) - e))%Q) by (apply Qmult_le_0_compat; lra). assert (H2 : (0 <= y * ((1 # 10000000000) + e))%Q) by (apply Qmult_le_0_compat; lra). lra. }
  apply Qabs_Qle_condition in P. set (w := (y * 86400000000 * (1 + e))%Q). assert (W : (w == 86400000000 * y + 86400000000 * (y * e))%Q) by (unfold w; ring). pose proof (py_round_spec w) as R. apply Qabs_Qle_condition in R. set (us := py_round w) in *.
  assert (N : -1 < us). { apply injZ_lt. change (inject_Z (-1)) with (-1)%Q. assert (0 <= w)%Q; [|lra]. unfold w. apply Qmult_le_0_compat; lra. }
  clearbody w us. unfold y in *. clear y.
  assert (Q : mpm * 1000 - 41 < us < mpm * 1000 + 41). { split; apply injZ_lt; [rewrite inject_Z_minus|rewrite inject_Z_plus]; rewrite inject_Z_mult; change (inject_Z 1000) with 1000%Q; change (inject_Z 41) with 41%Q; lra. }
  exists (us - mpm * 1000). split; [lia|]. split; [unfold dayus; lia|]. change (86400 * 1000000) with 86400000000. destruct (Z.ltb_spec us 86400000000); [|lia].
  set (T := (mjd * 86400000 + mpm) * 1000 + (us - mpm * 1000)). assert (T1 : T / dayus = mjd) by (unfold T, dayus; clear - Q H N; lia). assert (T2 : T / 1000000 mod 86400 = us / 1000000) by (unfold T; clear - Q H N; lia). assert (T3 : T mod 1000000 = us mod 1000000) by (unfold T; clear; lia).
  unfold dt_of. rewrite T1, T2, T3. destruct (ord2ymd (mjd + 678576)) as [[y m] d]. assert (us / 1000000 < 86400) by (clear - H; lia). destruct (Z.ltb_spec (us / 1000000) 86400); [|lia]. reflexivity.
Qed.
Lemma ms_near : forall us, 0 <= us < 1000000 -> exists k, py_round (fl (inject_Z us / 1000)%Q) = k /\ 1000 * k - 500 <= us <= 1000 * k + 500.
Proof.
  intros us U. exists (py_round (fl (inject_Z us / 1000)%Q)). split; [reflexivity|]. assert (D : (inject_Z us / 1000 == (1 # 1000) * inject_Z us)%Q) by field.
  assert (U1 : (0 <= inject_Z us)%Q) by (apply inj_nonneg; lia). assert (U2 : (inject_Z us <= inject_Z 999999)%Q) by (rewrite <- Zle_Qle; lia). change (inject_Z 999999) with 999999%Q in U2.
  destruct (fl_between (inject_Z us / 1000) 1000) as [B1 B2]; [lra|lra|]. unfold u in *. set (w := fl (inject_Z us / 1000)) in *. pose proof (py_round_spec w) as R. apply Qabs_Qle_condition in R. set (k := py_round w) in *. clearbody w k.
  assert (L : 1000 * k - 501 < us < 1000 * k + 501). { split; apply injZ_lt; [rewrite inject_Z_minus|rewrite inject_Z_plus]; rewrite inject_Z_mult; change (inject_Z 1000) with 1000%Q; change (inject_Z 501) with 501%Q; lra. }
  lia.
Qed.
Lemma pad_zeros : forall v, 0 <= v < 1000 -> pad 6 (1000 * v) = pad 3 v ++ [48; 48; 48].
Proof.
  intros v V. assert (E : forall k, k * 10 / 10 = k) by (intro; apply Z.div_mul; lia). assert (F : forall k, (k * 10) mod 10 = 0) by (intro; apply Z.mod_mul; lia).
  cbn [pad app]. replace (1000 * v) with (v * 10 * 10 * 10) by lia. rewrite !E, !F. reflexivity.
Qed.
Lemma utc_back : forall named leap e mjd mpm, 0 <= mjd <= 2973483 -> 0 <= mpm < 86400000 -> leap mjd = false -> (Qabs e <= 1 # 10000000000)%Q ->
  exists s, utc_string leap e mjd mpm = inr s /\ set_start named s = inr (mjd, mpm).
Proof.
  intros named leap e mjd mpm J M L E. destruct (astro_ok leap e mjd mpm J M L E) as (d & D & B & A). unfold utc_string. rewrite A. set (T := (mjd * 86400000 + mpm) * 1000 + d) in *.
  assert (I : in_years T = true). { unfold in_years. assert (X : T / dayus = mjd) by (unfold T, dayus in *; clear - B; lia). rewrite X. rewrite andb_true_iff, !Z.leb_le. lia. }
  destruct (dt_of_ok T I) as [V W]. assert (X : dt_us (dt_of T) = T mod 1000000) by (unfold dt_of; destruct (ord2ymd (T / dayus + 678576)) as [[? ?] ?]; reflexivity).
  destruct (ms_near (dt_us (dt_of T))) as (k & K1 & K2); [destruct V as (_ & _ & _ & _ & _ & V); exact V|]. rewrite K1, add_us_ok by auto. cbv zeta. rewrite W.
  assert (Z : T + (k * 1000 - dt_us (dt_of T)) = (mjd * 86400000 + mpm) * 1000). { rewrite X in *. unfold T in *. clear - K2 D. lia. } rewrite Z. set (T' := (mjd * 86400000 + mpm) * 1000) in *.
  assert (I' : in_years T' = true). { unfold in_years. assert (Y : T' / dayus = mjd) by (unfold T', dayus in *; clear - M; lia). rewrite Y. rewrite andb_true_iff, !Z.leb_le. lia. } rewrite I'.
  destruct (dt_of_ok T' I') as [V' W']. assert (X' : dt_us (dt_of T') = T' mod 1000000) by (unfold dt_of; destruct (ord2ymd (T' / dayus + 678576)) as [[? ?] ?]; reflexivity).
  assert (U : T' mod 1000000 = 1000 * (mpm mod 1000)) by (unfold T'; clear; lia). rewrite U in X'. assert (U' : 0 <= mpm mod 1000 < 1000) by (apply Z.mod_pos_bound; lia).
  eexists. split; [reflexivity|]. destruct (pad_spec 3 (mpm mod 1000) ltac:(lia)) as (P1 & P2 & _).
  pose proof (stamp_text 32 (dt_of T') (pad 3 (mpm mod 1000)) V' ltac:(lia) P2 ltac:(rewrite P1; lia)) as TX.
  match type of TX with time_text _ _ ?s => assert (S : stamp 32 (dt_of T') = s ++ [48; 48; 48]) end.
  { unfold stamp. rewrite X', (zpad_pad 6), pad_zeros by (auto; lia). repeat first [rewrite <- app_assoc | rewrite <- app_comm_cons]. reflexivity. }
  rewrite S, app_length. match goal with |- context [firstn (length ?s + length ?z - 3) (?s ++ ?z)] => replace (length s + length z - 3)%nat with (length s) by (cbn [length]; lia); rewrite firstn_app, Nat.sub_diag, firstn_all, firstn_O, app_nil_r end.
  destruct (set_text named (dt_of T') _ _ V' TX) as (n & N1 & N2 & N3). rewrite N3. rewrite fraction_pad in N1 by (cbn; lia). change (inject_Z (10 ^ Z.of_nat 3)) with 1000%Q in N1.
  assert (Q : (1000 * (inject_Z (mpm mod 1000) / 1000) == inject_Z (mpm mod 1000))%Q) by field. rewrite Q in N1. apply Qabs_Qle_condition in N1.
  assert (N : n - 1 < mpm mod 1000 < n + 1). { split; apply injZ_lt; [rewrite inject_Z_minus|rewrite inject_Z_plus]; change (inject_Z 1) with 1%Q; lra. }
  assert (n = mpm mod 1000) by lia. subst n. destruct (Z.ltb_spec (mpm mod 1000) 1000); [|lia]. cbv zeta. rewrite W', X'. replace (T' - 1000 * (mpm mod 1000) + 1000 * (mpm mod 1000)) with T' by lia. unfold T'. rewrite back_parts by auto. reflexivity.
Qed.

(** ** The order of observations *)
Lemma start_key_close : forall mjd mpm, 0 <= mjd <= 2973483 -> 0 <= mpm < 86400000 ->
  (Qabs (start_key mjd mpm - inject_Z (mjd * 86400000 + mpm) / 86400000) <= 34 # 100000000000)%Q.
Proof.
  intros mjd mpm J M. unfold start_key. assert (J1 : (0 <= inject_Z mjd)%Q) by (apply inj_nonneg; lia). assert (J2 : (inject_Z mjd <= inject_Z 2973483)%Q) by (rewrite <- Zle_Qle; lia). change (inject_Z 2973483) with 2973483%Q in J2.
  assert (M1 : (0 <= inject_Z mpm)%Q) by (apply inj_nonneg; lia). assert (M2 : (inject_Z mpm <= inject_Z 86399999)%Q) by (rewrite <- Zle_Qle; lia). change (inject_Z 86399999) with 86399999%Q in M2.
  assert (Dq : (inject_Z mpm / 86400000 == (1 # 86400000) * inject_Z mpm)%Q) by field.
  destruct (fl_between (inject_Z mpm / 86400000) 1) as [A1 A2]; [lra|lra|]. unfold u in *. set (a := fl (inject_Z mpm / 86400000)) in *. clearbody a.
  pose proof (fl_close (inject_Z mjd + a) 2973485) as C. unfold u in *. assert (C' : (Qabs (fl (inject_Z mjd + a) - (inject_Z mjd + a)) <= 2973485 * (1 # 9007199254740992))%Q) by (apply C, Qabs_Qle_condition; split; lra). apply Qabs_Qle_condition in C'.
  apply Qabs_Qle_condition. rewrite inject_Z_plus, inject_Z_mult. change (inject_Z 86400000) with 86400000%Q.
  assert (D : ((inject_Z mjd * 86400000 + inject_Z mpm) / 86400000 == inject_Z mjd + (1 # 86400000) * inject_Z mpm)%Q) by field. rewrite D. split; lra.
Qed.
Lemma start_key_order : forall d1 p1 d2 p2, 0 <= d1 <= 2973483 -> 0 <= p1 < 86400000 -> 0 <= d2 <= 2973483 -> 0 <= p2 < 86400000 ->
  (start_key d1 p1 < start_key d2 p2)%Q <-> d1 * 86400000 + p1 < d2 * 86400000 + p2.
Proof.
  assert (H : forall d1 p1 d2 p2, 0 <= d1 <= 2973483 -> 0 <= p1 < 86400000 -> 0 <= d2 <= 2973483 -> 0 <= p2 < 86400000 -> d1 * 86400000 + p1 < d2 * 86400000 + p2 -> (start_key d1 p1 < start_key d2 p2)%Q).
  { intros d1 p1 d2 p2 J1 M1 J2 M2 L. pose proof (start_key_close d1 p1 J1 M1) as A. pose proof (start_key_close d2 p2 J2 M2) as B. apply Qabs_Qle_condition in A, B. set (a := d1 * 86400000 + p1) in *. set (b := d2 * 86400000 + p2) in *.
    assert (S : a + 1 <= b) by lia. rewrite Zle_Qle, inject_Z_plus in S. change (inject_Z 1) with 1%Q in S.
    assert (Da : (inject_Z a / 86400000 == (1 # 86400000) * inject_Z a)%Q) by field. assert (Db : (inject_Z b / 86400000 == (1 # 86400000) * inject_Z b)%Q) by field. rewrite Da in A. rewrite Db in B. lra. }
  intros d1 p1 d2 p2 J1 M1 J2 M2. split; [|apply H; auto]. intro L. destruct (Z.lt_trichotomy (d1 * 86400000 + p1) (d2 * 86400000 + p2)) as [X|[X|X]]; auto; exfalso.
  - assert (d1 = d2 /\ p1 = p2) by lia. destruct H0; subst. lra.
  - apply H in X; auto. lra.
Qed.

(** ** Written durations *)
Lemma no_colon : forall s, all_digits s -> ~ In 58 s. Proof. intros s S. apply digits_no; [apply all_digits_iff; auto|reflexivity]. Qed.
Lemma sec_no_colon : forall ss f, all_digits ss -> all_digits f -> ~ In 58 (sec_text ss f).
Proof.
  intros ss f A F I. unfold sec_text in I. apply in_app_or in I. destruct I as [I|I]; [apply no_colon in I; auto|]. destruct f as [|c f]; [destruct I|]. destruct I as [I|I]; [discriminate|]. apply no_colon in I; auto.
Qed.
Lemma fraction_range : forall f, all_digits f -> (0 <= fraction f /\ fraction f < 1)%Q.
Proof.
  intros f F. rewrite fraction_dval. pose proof (digit_val f F) as D. set (T := 10 ^ _) in *. assert (T0 : (0 < inject_Z T)%Q) by (change 0%Q with (inject_Z 0); rewrite <- Zlt_Qlt; lia).
  split; [apply Qle_shift_div_l|apply Qlt_shift_div_r]; auto.
  - rewrite Qmult_0_l. apply inj_nonneg. lia.
  - rewrite Qmult_1_l, <- Zlt_Qlt. lia.
Qed.
Lemma pi_digits : forall s, all_digits s -> s <> [] -> parse_int s = Some (dval s).
Proof. intros s S N. apply parse_int_digits; auto. apply all_digits_iff; auto. Qed.
Lemma duration_parts : forall s total, hms_text s total -> exists th tm ts h m q, ~ In 58 th /\ ~ In 58 tm /\ ~ In 58 ts /\ parse_int th = Some h /\ parse_int tm = Some m /\ parse_float ts = Some q /\
  0 <= h /\ 0 <= m /\ (0 <= q)%Q /\ (total == inject_Z (3600 * h + 60 * m) + q)%Q /\ set_duration s = set_duration (th ++ 58 :: tm ++ 58 :: ts).
Proof.
  intros s total (hh & mm & ss & f & Hh & Hm & Hs & Hf & N & T & V). destruct (dec_float ss f Hs N Hf) as (q & P & Q). pose proof (fraction_range f Hf) as [F0 _]. pose proof (digit_val ss Hs) as D1. pose proof (digit_val mm Hm) as D2. pose proof (digit_val hh Hh) as D3.
  assert (Q0 : (0 <= q)%Q) by (rewrite Q; pose proof (inj_nonneg (dval ss) ltac:(lia)); lra).
  change whole with dval in V.
  fold (sec_text ss f) in T. destruct T as [(-> & A & B)|[(-> & A & B)|(-> & A & B)]].
  - exists hh, mm, (sec_text ss f), (dval hh), (dval mm), q. repeat split; auto using no_colon, sec_no_colon, pi_digits; try lia. rewrite V, Q, !inject_Z_plus, !inject_Z_mult. ring.
  - subst hh. exists [48], mm, (sec_text ss f), 0, (dval mm), q. change (dval []) with 0 in *. repeat split; auto using no_colon, sec_no_colon, pi_digits; try lia.
    + intros [X|[]]; discriminate.
    + rewrite V, Q, !inject_Z_plus, !inject_Z_mult. ring.
    + unfold set_duration. assert (X : ~ In 58 [48]) by (intros [X|[]]; discriminate). change (mm ++ [58] ++ sec_text ss f) with (mm ++ 58 :: sec_text ss f). rewrite (split_app 58 [48]), !(split_app 58 mm), (split_none 58 (sec_text ss f)) by auto using no_colon, sec_no_colon. reflexivity.
  - subst hh mm. exists [48], [48], (sec_text ss f), 0, 0, q. change (dval []) with 0 in *. assert (X : ~ In 58 [48]) by (intros [X|[]]; discriminate). repeat split; auto using no_colon, sec_no_colon, pi_digits; try lia.
    + rewrite V, Q, !inject_Z_plus, !inject_Z_mult. ring.
    + unfold set_duration. rewrite !(split_app 58 [48]), (split_none 58 (sec_text ss f)) by auto using no_colon, sec_no_colon. reflexivity.
Qed.
Lemma timedelta_ms : forall days secs us, 0 <= days <= 10 ^ 6 -> 0 <= secs < 86400 -> 0 <= us < 1000000 ->
  exists k, set_duration_timedelta days secs us = k /\ 1000 * k - 500 <= (days * 86400 + secs) * 1000000 + us <= 1000 * k + 500.
Proof.
  intros days secs us D S U. unfold set_duration_timedelta. destruct (ms_near us U) as (r & E & R). cbv zeta. rewrite E. set (sec := days * 86400 + secs). assert (B : 0 <= sec <= 10 ^ 12) by (unfold sec; lia).
  destruct (Z.eq_dec r 1000) as [->|].
  - eexists. split; [reflexivity|]. assert (X : (fl (fl (inject_Z sec) + fl (inject_Z 1000 / 1000)) == fl (fl (inject_Z (sec + 1)) + fl (inject_Z 0 / 1000)))%Q).
    { assert (Y : (inject_Z 1000 / 1000 == inject_Z 1)%Q) by reflexivity. assert (Y' : (inject_Z 0 / 1000 == inject_Z 0)%Q) by reflexivity. rewrite Y, Y', !fl_int, <- !inject_Z_plus by lia. rewrite Z.add_0_r. reflexivity. }
    assert (Z : to_ms (fl (fl (inject_Z sec) + fl (inject_Z 1000 / 1000)))%Q = to_ms (fl (fl (inject_Z (sec + 1)) + fl (inject_Z 0 / 1000)))%Q) by (unfold to_ms; apply py_round_compat; rewrite X; reflexivity).
    rewrite Z, ms_back by lia. lia.
  - eexists. split; [reflexivity|]. rewrite ms_back by lia. lia.
Qed.
Lemma number_ms : forall x, (0 <= x)%Q -> (x <= 1073741824)%Q -> (Qabs (inject_Z (set_duration_number x) - 1000 * x) <= (1 # 2) + (1 # 4096))%Q.
Proof.
  intros x A B. unfold set_duration_number, to_ms. destruct (fl_between (x * 1000) 1073741824000) as [C D]; [lra|lra|]. unfold u in *. set (w := fl _) in *. pose proof (py_round_spec w) as R. apply Qabs_Qle_condition in R. apply Qabs_Qle_condition. clearbody w. split; lra.
Qed.
