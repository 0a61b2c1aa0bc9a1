(** Proofs about text file headers: lines and dictionaries. *)
From Coq Require Import List ZArith Bool Lia.
From Verif Require Import LibList M_Py M_Str P_Str M_Header S_Header.
Import ListNotations.
Open Scope Z_scope.

(** ** Lines *)
Lemma spaces_all n : Forall (fun c => is_space c = true) (spaces n).
Proof. unfold spaces. apply Forall_forall. intros x H. apply repeat_spec in H. subst. reflexivity. Qed.
Lemma zlen_spaces n : 0 <= n -> zlen (spaces n) = n.
Proof. intro H. unfold spaces, zlen. rewrite repeat_length. lia. Qed.
Lemma drop_char_app c a b : drop_char c (a ++ b) = drop_char c a ++ drop_char c b.
Proof. apply filter_app. Qed.
Lemma drop_char_none c s : ~ In c s -> drop_char c s = s.
Proof. induction s as [|x s IH]; intro H; [reflexivity|]. unfold drop_char in *. cbn [filter]. destruct (Z.eqb_spec x c); [subst; destruct H; left; reflexivity|]. cbn. rewrite IH; [reflexivity|]. intro K. apply H. right. exact K. Qed.
Lemma drop_char_same c n : drop_char c (repeat c n) = [].
Proof. unfold drop_char. induction n as [|n IH]; [reflexivity|]. cbn [repeat filter]. rewrite Z.eqb_refl. exact IH. Qed.
Lemma drop_spaces c n : is_space c = false -> drop_char c (spaces n) = spaces n.
Proof. intro H. apply drop_char_none. unfold spaces. intro K. apply repeat_spec in K. subst. discriminate. Qed.
Lemma edge_rev s : s <> [] -> is_space (last s 0) = false -> edge_ok (rev s).
Proof. intros N H. destruct (exists_last N) as [a [x ->]]. rewrite last_last in H. rewrite rev_app_distr. exact H. Qed.
Lemma edge_hd s : is_space (hd 0 s) = false -> edge_ok s.
Proof. destruct s as [|x s]; cbn; auto. Qed.
Lemma rstrip_pad s q : Forall (fun c => is_space c = true) q -> s <> [] -> is_space (last s 0) = false -> rstrip (s ++ q) = s.
Proof. intros Q N H. unfold rstrip. rewrite rev_app_distr, lstrip_spaces by (apply Forall_rev; exact Q). rewrite lstrip_id by (apply edge_rev; assumption). apply rev_involutive. Qed.
Lemma rstrip_spaces q : Forall (fun c => is_space c = true) q -> rstrip q = [].
Proof. intro Q. unfold rstrip. rewrite <- (app_nil_r (rev q)), lstrip_spaces by (apply Forall_rev; exact Q). reflexivity. Qed.
Lemma plain_id s : one_line s -> map plain s = s.
Proof.
  induction s as [|x s IH]; intro H; [reflexivity|]. cbn [map]. rewrite IH by (intros c K; apply H; right; exact K). f_equal. unfold plain. assert (K := H x (or_introl eq_refl)).
  destruct (Z.leb_spec 9 x); destruct (Z.leb_spec x 13); cbn; try reflexivity. lia.
Qed.
Lemma drop_blanks_id s : hd 0 s <> 32 -> drop_blanks s = s.
Proof. destruct s as [|c s]; [reflexivity|]. cbn. intro H. destruct (Z.eqb_spec c 32); [contradiction|reflexivity]. Qed.
Lemma hd_rev (s : str) : hd 0 (rev s) = last s 0.
Proof. destruct s as [|x s] using rev_ind; [reflexivity|]. rewrite rev_app_distr, last_last. reflexivity. Qed.
Lemma fill_id w s : no_blank_ends s -> one_line s -> zlen s <= w -> fill w s = Some s.
Proof.
  intros (N & A & B) O L. unfold fill. destruct (Z.leb_spec (zlen s) w); [|lia]. rewrite plain_id by exact O. rewrite drop_blanks_id; [rewrite rev_involutive; reflexivity|]. rewrite hd_rev. intro E. rewrite E in B. discriminate.
Qed.
(** What is left of a line after the comment characters and the blanks at its end are gone *)
Definition clean (c : Z) (l : str) : str := if starts_with [c] l then rstrip (drop_char c l) else [].
Lemma starts_c c l : starts_with [c] (c :: l) = true.
Proof. cbn. rewrite Z.eqb_refl. reflexivity. Qed.
Lemma drop_own c l : drop_char c (c :: l) = drop_char c l.
Proof. unfold drop_char. cbn [filter]. rewrite Z.eqb_refl. reflexivity. Qed.
Lemma clean_text c i s q : is_space c = false -> no_blank_ends s -> ~ In c s -> Forall (fun x => is_space x = true) q -> clean c ([c] ++ spaces i ++ s ++ q) = spaces i ++ s /\ clean c ([c] ++ spaces i ++ s ++ q ++ [c]) = spaces i ++ s.
Proof.
  intros C (N & A & B) K Q. assert (D : forall r, Forall (fun x => is_space x = true) r -> drop_char c r = r).
  { intros r R. apply drop_char_none. intro X. rewrite Forall_forall in R. rewrite (R _ X) in C. discriminate. }
  assert (F : rstrip (spaces i ++ s ++ q) = spaces i ++ s).
  { rewrite app_assoc. apply rstrip_pad; [exact Q|intro E; apply app_eq_nil in E; destruct E; contradiction|]. destruct (exists_last N) as [a [x E]]. rewrite E in *. rewrite last_last in B. rewrite app_assoc, last_last. exact B. }
  unfold clean. cbn [app]. rewrite !starts_c, !drop_own, !drop_char_app, drop_spaces, (drop_char_none c s K), (D q Q) by exact C. split; [exact F|].
  change (drop_char c [c]) with (drop_char c (repeat c 1)). rewrite drop_char_same, app_nil_r. exact F.
Qed.
Lemma clean_rule c n : clean c (repeat c n) = [].
Proof. unfold clean. rewrite drop_char_same. destruct (starts_with [c] (repeat c n)); reflexivity. Qed.
Lemma clean_blank c n : is_space c = false -> clean c ([c] ++ spaces n ++ [c]) = [].
Proof. intro C. unfold clean. cbn [app]. rewrite starts_c, drop_own, drop_char_app, drop_spaces by exact C. change (drop_char c [c]) with (drop_char c (repeat c 1)). rewrite drop_char_same, app_nil_r. apply rstrip_spaces, spaces_all. Qed.
(** *** A line is not taken for the continuation of the one before. *)
Definition safe (c : Z) (l : str) : Prop := forall i, 1 <= i -> starts_with ([c] ++ spaces i ++ dots) l = false.
Lemma spaces_S n : 0 <= n -> spaces (n + 1) = 32 :: spaces n.
Proof. intro H. unfold spaces. rewrite Z2Nat.inj_add by lia. rewrite Nat.add_comm. reflexivity. Qed.
Lemma starts_dots : forall n m s, s <> [] -> is_space (hd 0 s) = false -> starts_with (repeat 32 n ++ dots) (repeat 32 m ++ s) = true -> starts_with dots s = true.
Proof.
  induction n as [|n IH]; intros m s N H E.
  - destruct m as [|m]; [exact E|]. cbn in E. discriminate.
  - destruct m as [|m]; [|cbn in E; apply (IH m s N H E)]. destruct s as [|x s]; [contradiction|]. cbn [repeat app starts_with hd] in E, H. destruct (Z.eqb_spec 32 x); [subst; discriminate|discriminate].
Qed.
Lemma safe_text c i s q : s <> [] -> is_space (hd 0 s) = false -> starts_with dots (s ++ q) = false -> safe c ([c] ++ spaces i ++ s ++ q).
Proof.
  intros N H D j J. destruct (starts_with ([c] ++ spaces j ++ dots) ([c] ++ spaces i ++ s ++ q)) eqn:E; [|reflexivity]. cbn [app] in E. cbn [starts_with] in E. rewrite Z.eqb_refl in E. cbn [andb] in E.
  unfold spaces in E. apply starts_dots in E; [congruence|destruct s; [contradiction|discriminate]|]. destruct s; [contradiction|exact H].
Qed.
Lemma safe_other c l : starts_with [c] l = false -> safe c l.
Proof. intros H i _. destruct l as [|x l]; [reflexivity|]. cbn in *. destruct (c =? x); [discriminate|reflexivity]. Qed.
Lemma safe_rule c n : is_space c = false -> safe c (repeat c n).
Proof.
  intros C i I. destruct n as [|[|n]]; [reflexivity|cbn [repeat app starts_with]; rewrite Z.eqb_refl; cbn [andb]; unfold spaces; destruct (Z.to_nat i); reflexivity|].
  cbn [repeat app starts_with]. rewrite Z.eqb_refl. cbn [andb]. replace i with ((i - 1) + 1) by lia. rewrite spaces_S by lia. cbn [app starts_with]. destruct (Z.eqb_spec 32 c); [subst; discriminate|reflexivity].
Qed.
Lemma safe_blank c n : is_space c = false -> safe c ([c] ++ spaces n ++ [c]).
Proof.
  intros C. replace ([c] ++ spaces n ++ [c]) with ([c] ++ spaces n ++ [c] ++ []) by reflexivity. apply safe_text; [discriminate|exact C|]. unfold dots. cbn [app starts_with]. destruct (46 =? c); reflexivity.
Qed.
Lemma good_dots k r : firstn 3 k <> [46; 46; 46] -> starts_with dots (k ++ 58 :: r) = false.
Proof.
  intro H. destruct (starts_with dots (k ++ 58 :: r)) eqn:E; [|reflexivity]. exfalso. destruct k as [|a [|b [|d k]]]; unfold dots in E; cbn [app starts_with] in E; try discriminate.
  - destruct (46 =? a); discriminate.
  - destruct (46 =? a); destruct (46 =? b); discriminate.
  - destruct (Z.eqb_spec 46 a); destruct (Z.eqb_spec 46 b); destruct (Z.eqb_spec 46 d); try discriminate. subst. apply H. reflexivity.
Qed.

(** ** Dictionaries *)
Section Dicts.
Context {J : Type}.
Notation dict := (list (str * node J)).
Lemma get_put (d : dict) k v : get (put d k v) k = Some v.
Proof. induction d as [|[k' v'] d IH]; cbn; [rewrite str_eqb_refl; reflexivity|]. destruct (str_eqb k' k) eqn:E; cbn; rewrite E; [reflexivity|exact IH]. Qed.
Lemma put_put (d : dict) k v w : put (put d k v) k w = put d k w.
Proof. induction d as [|[k' v'] d IH]; cbn; [rewrite str_eqb_refl; reflexivity|]. destruct (str_eqb k' k) eqn:E; cbn; rewrite E; [reflexivity|]. rewrite IH. reflexivity. Qed.
Lemma put_get (d : dict) k v : get d k = Some v -> put d k v = d.
Proof. induction d as [|[k' v'] d IH]; cbn; [discriminate|]. destruct (str_eqb k' k); [intro E; injection E as ->; reflexivity|]. intro E. rewrite IH by exact E. reflexivity. Qed.
Lemma put_new (d : dict) k v : ~ In k (map fst d) -> put d k v = d ++ [(k, v)].
Proof. induction d as [|[k' v'] d IH]; cbn; intro N; [reflexivity|]. destruct (str_eqb_spec k' k); [subst; destruct N; auto|]. rewrite IH by (intro K; apply N; auto). reflexivity. Qed.
Fixpoint get_at (p : list str) (d : dict) : option dict :=
  match p with [] => Some d | k :: p => match get d k with Some (Dict d') => get_at p d' | _ => None end end.
Fixpoint set_at (p : list str) (e : dict) (d : dict) : dict :=
  match p with [] => e | k :: p => match get d k with Some (Dict d') => put d k (Dict (set_at p e d')) | _ => d end end.
Lemma edit_at p : forall root d f d', get_at p root = Some d -> f d = Ok d' -> edit p f root = Ok (set_at p d' root).
Proof.
  induction p as [|k p IH]; intros root d f d' G F; cbn in *; [injection G as ->; exact F|]. destruct (get root k) as [[j|e]|]; try discriminate. rewrite (IH e d f d' G F). reflexivity.
Qed.
Lemma get_set p : forall root d e, get_at p root = Some d -> get_at p (set_at p e root) = Some e.
Proof. induction p as [|k p IH]; intros root d e G; cbn in *; [reflexivity|]. destruct (get root k) as [[j|x]|]; try discriminate. rewrite get_put. apply (IH x d e G). Qed.
Lemma set_set p : forall root d e f, get_at p root = Some d -> set_at p f (set_at p e root) = set_at p f root.
Proof. induction p as [|k p IH]; intros root d e f G; cbn in *; [reflexivity|]. destruct (get root k) as [[j|x]|]; try discriminate. rewrite get_put, put_put, (IH x d e f G). reflexivity. Qed.
Lemma set_get p : forall root d, get_at p root = Some d -> set_at p d root = root.
Proof. induction p as [|k p IH]; intros root d G; cbn in *; [injection G as ->; reflexivity|]. destruct (get root k) as [[j|x]|] eqn:E; try discriminate. rewrite (IH x d G). apply put_get, E. Qed.
Lemma get_deeper p : forall root d k e, get_at p root = Some d -> get d k = Some (Dict e) -> get_at (p ++ [k]) root = Some e.
Proof. induction p as [|k' p IH]; intros root d k e G K; cbn in *; [injection G as ->; rewrite K; reflexivity|]. destruct (get root k') as [[j|x]|]; try discriminate. apply (IH x d k e G K). Qed.
Lemma set_deeper p : forall root d k e f, get_at p root = Some d -> get d k = Some (Dict e) -> set_at (p ++ [k]) f root = set_at p (put d k (Dict f)) root.
Proof. induction p as [|k' p IH]; intros root d k e f G K; cbn in *; [injection G as ->; rewrite K; reflexivity|]. destruct (get root k') as [[j|x]|]; try discriminate. rewrite (IH x d k e f G K). reflexivity. Qed.
End Dicts.
