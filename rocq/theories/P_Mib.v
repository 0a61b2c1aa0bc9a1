(** Proofs about MIBs. *)
From Coq Require Import List ZArith Bool Lia.
From Verif Require Import M_Py M_Mib S_Mib.
Import ListNotations.
Open Scope Z_scope.

Lemma text_eqb_iff : forall a b, text_eqb a b = true <-> a = b.
Proof. intros a b. unfold text_eqb. destruct (list_eq_dec Z.eq_dec a b); split; congruence. Qed.
Lemma text_eqb_neq : forall a b, a <> b -> text_eqb a b = false.
Proof. intros a b H. unfold text_eqb. destruct (list_eq_dec Z.eq_dec a b); congruence. Qed.
Lemma c_string_fill : forall l n, ~ In 0 l -> c_string (l ++ repeat 0 n) = l.
Proof.
  induction l as [|b l IH]; intros n H; [destruct n; reflexivity|]. cbn [app c_string]. destruct (Z.eqb_spec b 0) as [->|]; [exfalso; apply H; left; reflexivity|]. f_equal. apply IH. intro I. apply H. right. exact I.
Qed.
Lemma c_string_short : forall l r, In 0 l -> (length (c_string (l ++ r)) < length l)%nat.
Proof.
  induction l as [|b l IH]; intros r H; [contradiction|]. cbn [app c_string length]. destruct (Z.eqb_spec b 0) as [->|]; [cbn; lia|]. cbn [length]. destruct H as [H|H]; [congruence|]. specialize (IH r H). lia.
Qed.
Lemma stored_length : forall k v, length (stored k v) = k.
Proof. induction k as [|k IH]; intro v; [reflexivity|]. cbn [stored length]. f_equal. apply IH. Qed.
Lemma stored_value : forall k v, 0 <= v < 256 ^ Z.of_nat k -> unsigned true (stored k v) = v.
Proof.
  unfold unsigned. induction k as [|k IH]; intros v H; [cbn in *; lia|]. rewrite Nat2Z.inj_succ, Z.pow_succ_r in H by lia. cbn [stored fold_right]. rewrite IH.
  - pose proof (Z.div_mod v 256). lia.
  - split; [apply Z.div_pos; lia|]. apply Z.div_lt_upper_bound; lia.
Qed.
Lemma stored_zero : forall k, (0 < k)%nat -> In 0 (stored k 0).
Proof. intros k H. destruct k; [lia|]. left. reflexivity. Qed.
Lemma stored_low : forall k v, 0 <= v < 256 ^ Z.of_nat k -> In 0 (stored (S k) v).
Proof.
  induction k as [|k IH]; intros v H; [cbn in H; replace v with 0 by lia; left; reflexivity|]. right. apply (IH (v / 256)). rewrite Nat2Z.inj_succ, Z.pow_succ_r in H by lia. split; [apply Z.div_pos; lia|]. apply Z.div_lt_upper_bound; lia.
Qed.
Lemma unpack_field : forall k v fill, 0 <= v < 256 ^ Z.of_nat k -> unpack k true false (c_string (field k v fill)) = if in_dec Z.eq_dec 0 (stored k v) then None else Some v.
Proof.
  intros k v fill H. unfold unpack, field. destruct (in_dec Z.eq_dec 0 (stored k v)) as [I|I].
  - pose proof (c_string_short _ (repeat 0 fill) I) as L. rewrite stored_length in L. destruct (Nat.eqb_spec (length (c_string (stored k v ++ repeat 0 fill))) k); [lia|reflexivity].
  - rewrite c_string_fill by exact I. rewrite stored_length, Nat.eqb_refl, stored_value by exact H. reflexivity.
Qed.
Lemma lookup_put : forall A k k' (v : A) d, lookup k (put k' v d) = if text_eqb k' k then Some v else lookup k d.
Proof.
  intros A k k' v d. induction d as [|[a b] d IH]; cbn [put lookup]; [reflexivity|]. destruct (text_eqb a k') eqn:E.
  - apply text_eqb_iff in E. subst a. cbn [lookup]. destruct (text_eqb k' k); reflexivity.
  - cbn [lookup]. rewrite IH. destruct (text_eqb a k) eqn:E2; [|reflexivity]. apply text_eqb_iff in E2. subst a. destruct (text_eqb k' k) eqn:E3; [|reflexivity]. apply text_eqb_iff in E3. subst k'. rewrite (proj2 (text_eqb_iff k k) eq_refl) in E. discriminate.
Qed.
Lemma put_keys : forall A k (v : A) d x, In x (map fst (put k v d)) <-> x = k \/ In x (map fst d).
Proof.
  intros A k v d x. induction d as [|[a b] d IH]; cbn [put map fst In]; [intuition congruence|]. destruct (text_eqb a k) eqn:E; cbn [map fst In].
  - apply text_eqb_iff in E. subst a. intuition congruence.
  - rewrite IH. intuition congruence.
Qed.
Lemma put_nodup : forall A k (v : A) d, NoDup (map fst d) -> NoDup (map fst (put k v d)).
Proof.
  intros A k v d. induction d as [|[a b] d IH]; intro N; cbn [put map fst]; [constructor; [intros []|constructor]|]. cbn [map fst] in N. inversion N as [|? ? N1 N2]; subst. destruct (text_eqb a k) eqn:E; cbn [map fst]; [exact N|].
  constructor; [|apply IH; exact N2]. intro I. apply put_keys in I. destruct I as [->|I]; [rewrite (proj2 (text_eqb_iff k k) eq_refl) in E; discriminate|contradiction].
Qed.
Lemma lookup_in : forall A k (d : list (text * A)), In k (map fst d) -> exists v, lookup k d = Some v.
Proof.
  intros A k d. induction d as [|[a b] d IH]; intro I; [contradiction|]. cbn [lookup]. destruct (text_eqb a k) eqn:E; [eexists; reflexivity|]. apply IH. destruct I as [I|I]; [|exact I]. cbn in I. subst a. rewrite (proj2 (text_eqb_iff k k) eq_refl) in E. discriminate.
Qed.
(** The two mappers, after lines with distinct names and distinct indices, are inverse. *)
Lemma init_spec : forall pairs m, exists m', init_lines m (map (fun p => line (fst p) (snd p)) pairs) = Ok m' /\ entries m' = entries m /\
  (NoDup (map fst pairs) -> NoDup (map snd pairs) -> (forall p, In p pairs -> lookup (fst p) (mapper m') = Some (snd p) /\ lookup (snd p) (inv_mapper m') = Some (fst p)) /\
    (forall i, ~ In i (map fst pairs) -> lookup i (mapper m') = lookup i (mapper m)) /\ forall n, ~ In n (map snd pairs) -> lookup n (inv_mapper m') = lookup n (inv_mapper m)).
Proof.
  induction pairs as [|[i n] pairs IH]; intro m.
  - exists m. split; [reflexivity|]. split; [reflexivity|]. intros _ _. split; [intros p []|]. split; auto.
  - cbn [map fst snd]. unfold line at 1. cbn [init_lines]. rewrite text_eqb_neq by discriminate. destruct (IH (mkMib (entries m) (put i n (mapper m)) (put n i (inv_mapper m)))) as (m' & E & En & P).
    exists m'. split; [exact E|]. split; [exact En|]. intros N1 N2. inversion N1 as [|? ? A1 B1]; subst. inversion N2 as [|? ? A2 B2]; subst. destruct (P B1 B2) as (P1 & P2 & P3). cbn [mapper inv_mapper] in P2, P3. split; [|split].
    + intros p [<-|I]; [|apply P1; exact I]. cbn [fst snd]. rewrite P2, P3 by assumption. rewrite !lookup_put, !(proj2 (text_eqb_iff _ _) eq_refl). split; reflexivity.
    + intros j J. cbn [In] in J. rewrite P2 by tauto. rewrite lookup_put, text_eqb_neq by (intro; subst; tauto). reflexivity.
    + intros j J. cbn [In] in J. rewrite P3 by tauto. rewrite lookup_put, text_eqb_neq by (intro; subst; tauto). reflexivity.
Qed.
Section Load.
  Variable utf8 : list Z -> res text.
  Hypothesis Hu : forall l e, utf8 l = Raise e -> e = UnicodeError.
  Lemma parse_value_errors : forall v ty e, parse_value utf8 v ty = Raise e -> e = UnicodeError \/ e = ValueError.
  Proof.
    intros v ty e H. unfold parse_value in H.
    assert (T : bind (utf8 v) (fun t => Ok (Text t)) = Raise e -> e = UnicodeError \/ e = ValueError) by (destruct (utf8 v) as [t|x] eqn:E; cbn [bind]; [discriminate|]; intro X; injection X as <-; left; apply (Hu v); exact E).
    destruct (text_eqb ty [78; 85; 76] || text_eqb ty []); [auto|]. destruct (prefix [97] ty); [auto|]. destruct (prefix [114] ty); [auto|]. clear T.
    do 9 (destruct (prefix _ ty) in H; [discriminate|]). injection H as <-. right. reflexivity.
  Qed.
  Lemma from_entry_errors : forall r e, from_entry utf8 r = Raise e -> e = UnicodeError \/ e = ValueError.
  Proof.
    intros r e H. unfold from_entry in H. destruct (match utf8 (c_string (r_index r)) with Ok a => _ | _ => _ end) as [[index dbm] icd]. destruct (r_etype r =? 0); [injection H as <-; auto|]. destruct index as [|c index]; [injection H as <-; auto|].
    destruct ((48 <=? c) && (c <=? 57)); [|injection H as <-; auto]. destruct (parse_value utf8 (c_string (r_val r)) dbm) as [v|x] eqn:E; cbn [bind] in H; [discriminate|]. injection H as <-. apply (parse_value_errors _ _ _ E).
  Qed.
  Lemma from_entry_digit : forall r e, from_entry utf8 r = Ok e -> starts_with_digit (e_index e).
  Proof.
    clear Hu. intros r e H. unfold from_entry in H. destruct (match utf8 (c_string (r_index r)) with Ok a => _ | _ => _ end) as [[index dbm] icd]. destruct (r_etype r =? 0); [discriminate|]. destruct index as [|c index]; [discriminate|].
    destruct (Z.leb_spec 48 c); [|discriminate]. destruct (Z.leb_spec c 57); [|discriminate]. cbn [andb] in H. destruct (parse_value utf8 (c_string (r_val r)) dbm) as [v|x]; cbn [bind] in H; [|discriminate]. injection H as <-. cbn [e_index]. exists c, index. split; [reflexivity|lia].
  Qed.
  Definition last_entry (k : text) (rs : list record) (o : option entry) : option entry :=
    fold_left (fun o r => match from_entry utf8 r with Ok e => if text_eqb (e_index e) k then Some e else o | Raise _ => o end) rs o.
  Lemma load_spec : forall rs m, exists m', load utf8 m rs = Ok m' /\ mapper m' = mapper m /\ inv_mapper m' = inv_mapper m /\ (forall k, lookup k (entries m') = last_entry k rs (lookup k (entries m))) /\
    (NoDup (map fst (entries m)) -> NoDup (map fst (entries m'))) /\ ((forall k, In k (map fst (entries m)) -> starts_with_digit k) -> forall k, In k (map fst (entries m')) -> starts_with_digit k).
  Proof.
    induction rs as [|r rs IH]; intro m; cbn [load].
    - exists m. repeat split; auto.
    - unfold last_entry. cbn [fold_left]. destruct (from_entry utf8 r) as [e|x] eqn:E.
      + destruct (IH (mkMib (put (e_index e) e (entries m)) (mapper m) (inv_mapper m))) as (m' & L & A & B & C & D & G). cbn [mapper inv_mapper entries] in *. exists m'. split; [exact L|]. split; [exact A|]. split; [exact B|]. split.
        * intro k. rewrite C, lookup_put. reflexivity.
        * split; [intro N; apply D; apply put_nodup; exact N|]. intros K. apply G. intros k I. apply put_keys in I. destruct I as [->|I]; [apply (from_entry_digit _ _ E)|apply K; exact I].
      + destruct (from_entry_errors _ _ E) as [-> | ->]; apply IH.
  Qed.
End Load.
Lemma stored_mod : forall k v, stored k (v mod 256 ^ Z.of_nat k) = stored k v.
Proof.
  induction k as [|k IH]; intro v; [reflexivity|]. cbn [stored]. rewrite Nat2Z.inj_succ, Z.pow_succ_r by lia. f_equal.
  - rewrite Z.rem_mul_r by lia. rewrite Z.mul_comm, Z.mod_add by lia. apply Z.mod_mod. lia.
  - rewrite Z.rem_mul_r by lia. rewrite Z.mul_comm, Z.div_add by lia. rewrite (Z.div_small (v mod 256)) by (apply Z.mod_pos_bound; lia). apply IH.
Qed.
Lemma unpack_float : forall k lf bits fill, 0 <= bits < 256 ^ Z.of_nat k -> unpack k lf false (c_string (float_field k lf bits fill)) = if in_dec Z.eq_dec 0 (stored k bits) then None else Some bits.
Proof.
  intros k lf bits fill H. destruct lf; [apply unpack_field; exact H|]. unfold unpack, float_field. destruct (in_dec Z.eq_dec 0 (stored k bits)) as [I|I].
  - apply in_rev in I. pose proof (c_string_short _ (repeat 0 fill) I) as L. rewrite rev_length, stored_length in L. destruct (Nat.eqb_spec (length (c_string (rev (stored k bits) ++ repeat 0 fill))) k); [lia|reflexivity].
  - rewrite c_string_fill by (rewrite <- in_rev; exact I). rewrite rev_length, stored_length, Nat.eqb_refl. unfold unsigned. rewrite rev_involutive. pose proof (stored_value k bits H) as S. unfold unsigned in S. rewrite S. reflexivity.
Qed.
