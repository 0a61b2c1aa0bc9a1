(** Reading the text of a station description file: a line gives the entry it says, and the variables hold what the entries say. *)
From Coq Require Import Ascii String List ZArith Bool Lia FinFun.
From Verif Require Import M_Py M_Str M_Sdf P_Str P_Sdf M_Ssmif S_Ssmif.
Import ListNotations.
Open Scope Z_scope.

Lemma tx_inj : forall a b, tx a = tx b -> a = b.
Proof.
  unfold tx. intros a b H.
  assert (L : list_ascii_of_string a = list_ascii_of_string b).
  { revert H. generalize (list_ascii_of_string a), (list_ascii_of_string b). clear. induction l as [|x l IH]; intros [|y m] H; cbn in H; try discriminate; [reflexivity|].
    injection H as H1 H2. f_equal; [|apply IH, H2]. apply N2Z.inj in H1. rewrite <- (ascii_N_embedding x), <- (ascii_N_embedding y). now f_equal. }
  now rewrite <- (string_of_list_ascii_of_string a), L, string_of_list_ascii_of_string.
Qed.
Lemma tx_eqb : forall a b, str_eqb (tx a) (tx b) = String.eqb a b.
Proof.
  intros a b. destruct (str_eqb_spec (tx a) (tx b)) as [E|E]; destruct (String.eqb_spec a b) as [F|F]; try reflexivity.
  - now apply tx_inj in E. - now subst.
Qed.
Lemma find_instr_tx : forall k l, find_instr (tx k) l = assoc k l.
Proof. induction l as [|[n i] l IH]; cbn [find_instr assoc]; [reflexivity|]. rewrite tx_eqb, IH. reflexivity. Qed.
Lemma assoc_entry : forall A k (l : list (string * A)), assoc k l = entry_of k l.
Proof. induction l as [|[n i] l IH]; cbn [entry_of assoc]; [reflexivity|]. now rewrite IH. Qed.

(** *** Lines. *)
Lemma kw_part_app : forall k r, Forall (fun c => kw_char c = true) k -> match r with [] => True | c :: _ => kw_char c = false end ->
  kw_part (k ++ r) = (k, r).
Proof.
  induction k as [|c k IH]; intros r F R; cbn [app].
  - destruct r as [|c r]; [reflexivity|]. cbn [kw_part]. now rewrite R.
  - inversion F; subst. cbn [kw_part]. rewrite H1, IH by assumption. reflexivity.
Qed.
Lemma kw_char_range : forall c, 65 <= c <= 90 \/ c = 95 \/ 48 <= c <= 57 -> kw_char c = true.
Proof. intros c H. unfold kw_char. rewrite !orb_true_iff, !andb_true_iff, !Z.leb_le, Z.eqb_eq. lia. Qed.
Lemma kw_key : forall c, kw_char c = true -> key_char c = true.
Proof. intros c H. unfold kw_char, key_char in *. now rewrite H. Qed.
Lemma bracketed_brackets : forall ids, bracketed ids = brackets ids.
Proof. induction ids as [|i r IH]; [reflexivity|]. cbn [bracketed]. unfold brackets in *. cbn [flat_map app]. rewrite IH, <- !app_assoc. reflexivity. Qed.
Lemma drop_char_id : forall c s, ~ In c s -> drop_char c s = s.
Proof.
  induction s as [|x s IH]; intro H; [reflexivity|]. unfold drop_char in *. cbn [filter]. destruct (Z.eqb_spec x c); [exfalso; apply H; left; congruence|].
  cbn [negb]. f_equal. apply IH. intro; apply H; now right.
Qed.
Lemma words_gap : forall k gap v, Forall (fun x => is_space x = false) k -> k <> [] -> gap <> [] -> Forall (fun x => is_space x = true) gap ->
  (exists c r, v = c :: r /\ is_space c = false) -> words 1 (k ++ gap ++ v) = [k; v].
Proof.
  intros k gap v K NE GN G (c & r & -> & NC). destruct gap as [|g gap]; [easy|]. inversion G; subst.
  destruct k as [|k0 k]; [easy|]. inversion K as [|? ? K0 K1]; subst. cbn [words app lstrip]. rewrite K0.
  change (k0 :: k ++ g :: gap ++ c :: r) with ((k0 :: k) ++ g :: (gap ++ c :: r)).
  rewrite word_app by assumption. cbn [words]. f_equal. rewrite lstrip_spaces by assumption. cbn [lstrip]. rewrite NC. cbn [lstrip]. now rewrite NC.
Qed.
Lemma no_in : forall (P : Z -> Prop) c l, Forall P l -> ~ P c -> ~ In c l.
Proof. intros P c l F N I1. rewrite Forall_forall in F. apply N, F, I1. Qed.

Definition pad3 (ids : list Z) : list Z := firstn 3 (ids ++ [-1; -1; -1]).
Lemma words_lead : forall lead s, Forall (fun x => is_space x = true) lead -> words 1 (lead ++ s) = words 1 s.
Proof. intros. cbn [words]. now rewrite lstrip_spaces. Qed.
Lemma scan_entry : forall isf l e, line_says isf l (Some e) ->
  exists t, scan l = Entry (tx (e_key e)) (pad3 (e_ids e)) t /\ shows isf (e_val e) t /\ (length (e_ids e) <= 3)%nat.
Proof.
  intros isf l e H. inversion H as [| |lead k ids gap t comment v LE [KN KT] LI NI GN GS TI T35 TE CM SH]; subst. exists t.
  assert (KC : Forall (fun c => kw_char c = true) (tx k)) by (eapply Forall_impl; [|exact KT]; intros; now apply kw_char_range).
  assert (KS : Forall (fun c => is_space c = false) (tx k)) by (eapply Forall_impl; [|exact KC]; intros; now apply key_not_space, kw_key).
  assert (KNE : tx k <> []) by (intro E; apply KN; apply (tx_inj k ""%string); exact E).
  assert (BS : Forall (fun c => is_space c = false) (bracketed ids)) by (rewrite bracketed_brackets; now apply brackets_not_space).
  assert (TC : exists c r, t ++ comment = c :: r /\ is_space c = false) by (destruct TE as (c & r & -> & E); exists c, (r ++ comment); split; [reflexivity|exact E]).
  assert (SP : forall m, Forall space m -> Forall (fun x => is_space x = true) m) by (intros m F; eapply Forall_impl; [|exact F]; intros a0 A; apply A).
  assert (NN : forall c, c = 10 \/ c = 13 -> ~ In c (lead ++ tx k ++ bracketed ids ++ gap ++ t ++ comment)).
  { intros c C. rewrite !in_app_iff. intros [X|[X|[X|[X|[X|X]]]]].
    - rewrite Forall_forall in LE. destruct (LE _ X) as (_ & ? & ?). lia.
    - rewrite Forall_forall in KS. specialize (KS _ X). destruct C; subst c; discriminate KS.
    - rewrite Forall_forall in BS. specialize (BS _ X). destruct C; subst c; discriminate BS.
    - rewrite Forall_forall in GS. destruct (GS _ X) as (_ & ? & ?). lia.
    - rewrite Forall_forall in TI. destruct (TI _ X). lia.
    - destruct CM as [->|(r & -> & F)]; [easy|]. destruct X as [X|X]; [lia|]. rewrite Forall_forall in F. destruct (F _ X). lia. }
  split; [|split; [exact SH|exact LI]].
  unfold scan. rewrite (drop_char_id 10) by (apply NN; auto). rewrite (drop_char_id 13) by (apply NN; auto).
  assert (HD : exists c r, lead ++ tx k ++ bracketed ids ++ gap ++ t ++ comment = c :: r /\ c <> 35).
  { destruct lead as [|c0 lead'].
    - destruct (tx k) as [|c r] eqn:E; [easy|]. exists c. eexists. split; [reflexivity|]. inversion KC as [|? ? Y ?]; subst. intro; subst c. discriminate Y.
    - exists c0. eexists. split; [reflexivity|]. inversion LE as [|? ? (Y & _) ?]; subst. intro; subst c0. discriminate Y. }
  assert (FS : forallb is_space (lead ++ tx k ++ bracketed ids ++ gap ++ t ++ comment) = false).
  { destruct (forallb is_space _) eqn:E; [|reflexivity]. rewrite forallb_forall in E. destruct (tx k) as [|c r] eqn:EK; [easy|].
    inversion KS as [|? ? Y ?]; subst. rewrite (E c) in Y; [discriminate Y|]. apply in_app_iff. right. now left. }
  destruct HD as (c & r & EQ & N35). rewrite EQ, <- EQ, FS. apply Z.eqb_neq in N35. rewrite N35.
  replace (lead ++ tx k ++ bracketed ids ++ gap ++ t ++ comment) with (lead ++ (tx k ++ bracketed ids) ++ gap ++ (t ++ comment)) by now rewrite <- !app_assoc.
  rewrite words_lead by now apply SP.
  rewrite words_gap; [| apply Forall_app; now split | now destruct (tx k) | exact GN | now apply SP | exact TC ].
  rewrite kw_part_app; [| exact KC | destruct ids; cbn; [exact I|reflexivity] ].
  destruct (tx k) as [|c1 r1] eqn:EK; [easy|]. cbn [e_key e_ids e_val]. rewrite EK. f_equal.
  - unfold pad3. rewrite bracketed_brackets, id_part_brackets by assumption. reflexivity.
  - destruct CM as [->|(q & -> & F)]; [rewrite app_nil_r, P_Str.split1_none by exact T35; reflexivity|]. rewrite split1_found by exact T35. reflexivity.
Qed.
Lemma scan_nothing : forall isf l, line_says isf l None -> scan l = Nothing.
Proof.
  intros isf l H. inversion H as [m F|m F|]; subst.
  - assert (NN : forall c, c = 10 \/ c = 13 -> ~ In c l) by (intros c C X; rewrite Forall_forall in F; destruct (F _ X) as (_ & ? & ?); lia).
    unfold scan. rewrite (drop_char_id 10), (drop_char_id 13) by (apply NN; auto). destruct l as [|c l]; [reflexivity|].
    replace (forallb is_space (c :: l)) with true; [reflexivity|]. symmetry. apply forallb_forall. rewrite Forall_forall in F. intros x X. apply (F x X).
  - assert (NN : forall c, c = 10 \/ c = 13 -> ~ In c (35 :: m)) by (intros c C [X|X]; [lia|]; rewrite Forall_forall in F; destruct (F _ X) as (? & ?); lia).
    unfold scan. rewrite (drop_char_id 10), (drop_char_id 13) by (apply NN; auto). destruct (forallb _ _); reflexivity.
Qed.

(** *** Tables of values. *)
Definition R (n : Z) : list Z := map (fun k => k + 1) (zrange n).
Lemma zrange_In : forall n x, In x (zrange n) <-> 0 <= x < n.
Proof.
  intros n x. unfold zrange. rewrite in_map_iff. split.
  - intros (k & <- & K). apply in_seq in K. lia.
  - intro H. exists (Z.to_nat x). rewrite in_seq. lia.
Qed.
Lemma R_In : forall n x, In x (R n) <-> 1 <= x <= n.
Proof. intros n x. unfold R. rewrite in_map_iff. split; [intros (k & <- & K); apply zrange_In in K; lia|]. intro H. exists (x - 1). rewrite zrange_In. lia. Qed.
Lemma zrange_length : forall n, length (zrange n) = Z.to_nat n.
Proof. intros. unfold zrange. now rewrite map_length, seq_length. Qed.
Lemma R_length : forall n, length (R n) = Z.to_nat n.
Proof. intros. unfold R. now rewrite map_length, zrange_length. Qed.
Lemma R_nth : forall n k, (k < Z.to_nat n)%nat -> nth_error (R n) k = Some (Z.of_nat k + 1).
Proof.
  intros n k H. unfold R, zrange. rewrite map_map.
  rewrite (map_nth_error (fun x => Z.of_nat x + 1) k (seq 0 (Z.to_nat n)) (d := k)); [reflexivity|].
  rewrite nth_error_nth' with (d := 0%nat) by now rewrite seq_length. now rewrite seq_nth.
Qed.
Definition tab1 (n : Z) (f : Z -> pv) : pv := VL (map f (R n)).
Definition tab2 (n m : Z) (f : Z -> Z -> pv) : pv := VL (map (fun i => tab1 m (f i)) (R n)).
Lemma tab1_ext : forall n f g, (forall i, 1 <= i <= n -> f i = g i) -> tab1 n f = tab1 n g.
Proof. intros. unfold tab1. f_equal. apply map_ext_in. intros i I1. apply H, R_In, I1. Qed.
Lemma tab2_ext : forall n m f g, (forall i j, 1 <= i <= n -> 1 <= j <= m -> f i j = g i j) -> tab2 n m f = tab2 n m g.
Proof. intros. unfold tab2. f_equal. apply map_ext_in. intros i I1. apply tab1_ext. intros j J. apply H; [apply R_In, I1|exact J]. Qed.
Lemma py_get_R : forall A n (f : Z -> A) i, 1 <= i <= n -> py_get (i - 1) (map f (R n)) = Some (f i).
Proof.
  intros A n f i H. unfold py_get, py_index. rewrite map_length, R_length, Z2Nat.id by lia.
  replace (i - 1 <? 0) with false by (symmetry; apply Z.ltb_ge; lia).
  replace ((0 <=? i - 1) && (i - 1 <? n)) with true by (symmetry; apply andb_true_iff; split; [apply Z.leb_le|apply Z.ltb_lt]; lia).
  apply map_nth_error. rewrite R_nth by lia. f_equal. lia.
Qed.
Lemma set_nth_map : forall A (f : Z -> A) v l k i, NoDup l -> nth_error l k = Some i -> set_nth k v (map f l) = map (fun x => if x =? i then v else f x) l.
Proof.
  induction l as [|x l IH]; intros [|k] i ND H; cbn in H; try discriminate.
  - injection H as ->. inversion ND; subst. cbn [map set_nth]. rewrite Z.eqb_refl. f_equal. apply map_ext_in. intros y Y. destruct (Z.eqb_spec y i); [subst; contradiction|reflexivity].
  - inversion ND; subst. cbn [map set_nth]. destruct (Z.eqb_spec x i); [subst; apply nth_error_In in H; contradiction|]. f_equal. now apply IH.
Qed.
Lemma R_NoDup : forall n, NoDup (R n).
Proof.
  intro n. unfold R, zrange. rewrite map_map. apply FinFun.Injective_map_NoDup; [intros a b E; lia|apply seq_NoDup].
Qed.
Lemma py_set_R : forall A n (f : Z -> A) i v, 1 <= i <= n -> py_set (i - 1) v (map f (R n)) = Some (map (fun x => if x =? i then v else f x) (R n)).
Proof.
  intros A n f i v H. unfold py_set, py_index. rewrite map_length, R_length, Z2Nat.id by lia.
  replace (i - 1 <? 0) with false by (symmetry; apply Z.ltb_ge; lia).
  replace ((0 <=? i - 1) && (i - 1 <? n)) with true by (symmetry; apply andb_true_iff; split; [apply Z.leb_le|apply Z.ltb_lt]; lia).
  f_equal. apply set_nth_map; [apply R_NoDup|]. rewrite R_nth by lia. f_equal. lia.
Qed.
Lemma put1 : forall n f i v, 1 <= i <= n -> put_path [i - 1] v (tab1 n f) = Ok (tab1 n (fun x => if x =? i then v else f x)).
Proof. intros. cbn [put_path tab1]. rewrite py_get_R by assumption. cbn [bind]. rewrite py_set_R by assumption. reflexivity. Qed.
Lemma put2 : forall n m f i j v, 1 <= i <= n -> 1 <= j <= m ->
  put_path [i - 1; j - 1] v (tab2 n m f) = Ok (tab2 n m (fun x y => if (x =? i) && (y =? j) then v else f x y)).
Proof.
  intros. unfold tab2. change (put_path [i - 1; j - 1] v (VL ?l)) with
    (match py_get (i - 1) l with None => Raise IndexError | Some u => bind (put_path [j - 1] v u) (fun u' => match py_set (i - 1) u' l with Some l' => Ok (VL l') | None => Raise IndexError end) end).
  rewrite py_get_R by assumption. rewrite put1 by assumption. cbn [bind]. rewrite py_set_R by assumption. do 2 f_equal. apply map_ext. intro x.
  destruct (Z.eqb_spec x i); [subst|]; apply tab1_ext; reflexivity.
Qed.
