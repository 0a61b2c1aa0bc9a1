(** Lemmas about session definition files: from text to keywords and values. *)
From Coq Require Import Ascii String.
From Coq Require Import List ZArith Bool Lia QArith Qround Qabs Lqa.
From Verif Require Import M_Str P_Str P_Bar M_Sdf S_Sdf.
Import ListNotations.
Open Scope Z_scope.
Ltac Zify.zify_post_hook ::= Z.div_mod_to_equations.

(** *** Words *)
Lemma word_app : forall k c r, Forall (fun x => is_space x = false) k -> is_space c = true -> word (k ++ c :: r) = (k, lstrip r).
Proof.
  induction k as [|x k IH]; intros c r H C; cbn.
  - rewrite C. reflexivity.
  - inversion H; subst. rewrite H2. rewrite (IH c r); auto.
Qed.
Definition edge (v : str) : Prop := match v with [] => False | c :: _ => is_space c = false end.
Lemma edge_lstrip : forall v, edge v -> lstrip v = v.
Proof. destruct v as [|c v]; cbn; [tauto|]. intros ->. auto. Qed.
Lemma words_two : forall k v, Forall (fun x => is_space x = false) k -> k <> [] -> edge v -> words 1 (k ++ 32 :: v) = [k; v].
Proof.
  intros k v K N V. destruct k as [|x k]; [congruence|]. inversion K; subst. cbn [words app]. cbn [lstrip]. rewrite H1.
  change (x :: k ++ 32 :: v) with ((x :: k) ++ 32 :: v). rewrite word_app by (auto; reflexivity). rewrite (edge_lstrip v V). cbn [words].
  rewrite (edge_lstrip v V). destruct v as [|y v]; [destruct V|]. reflexivity.
Qed.

(** *** Keywords *)
Lemma key_part_app : forall k r, Forall (fun c => key_char c = true) k -> match r with [] => True | c :: _ => key_char c = false end ->
  key_part (k ++ r) = (k, r).
Proof.
  induction k as [|c k IH]; intros r H R; cbn.
  - destruct r as [|c r]; cbn; auto. rewrite R. auto.
  - inversion H; subst. rewrite H2, (IH r); auto.
Qed.
Lemma digit_part_app : forall k r, Forall (fun c => is_digit c = true) k -> match r with [] => True | c :: _ => is_digit c = false end ->
  digit_part (k ++ r) = (k, r).
Proof.
  induction k as [|c k IH]; intros r H R; cbn.
  - destruct r as [|c r]; cbn; auto. rewrite R. auto.
  - inversion H; subst. rewrite H2, (IH r); auto.
Qed.
Lemma dec_pos_digits : forall i, 0 <= i -> Forall (fun c => is_digit c = true) (dec i).
Proof. intros i H. unfold dec. destruct (Z.ltb_spec i 0); [lia|]. apply dec_nat_spec. auto. Qed.
Lemma id_part_brackets : forall ids n, Forall (fun i => 0 <= i) ids -> (length ids <= n)%nat -> id_part n (brackets ids) = ids.
Proof.
  induction ids as [|i ids IH]; intros n H L.
  - destruct n; reflexivity.
  - destruct n as [|n]; [cbn in L; lia|]. inversion H; subst. change (brackets (i :: ids)) with ((91 :: dec i ++ [93]) ++ brackets ids).
    cbn [app id_part]. rewrite <- app_assoc. cbn [app]. rewrite digit_part_app by (auto using dec_pos_digits; reflexivity).
    pose proof (dec_ne i) as N. pose proof (parse_dec i) as P. destruct (dec i) as [|d ds] eqn:E; [congruence|].
    rewrite P. rewrite IH; auto. cbn in L. lia.
Qed.

(** *** Lines *)
Definition key_ok (k : str) : Prop := k <> [] /\ Forall (fun c => key_char c = true) k /\ last k 0 <> 43.
Lemma key_not_space : forall c, key_char c = true -> is_space c = false.
Proof.
  intros c H. unfold key_char in H. rewrite !orb_true_iff, !andb_true_iff, !Z.leb_le, !Z.eqb_eq in H.
  unfold is_space. repeat (apply orb_false_iff; split); try (apply andb_false_iff; rewrite !Z.leb_gt; lia); apply Z.eqb_neq; lia.
Qed.
Lemma brackets_not_space : forall ids, Forall (fun i => 0 <= i) ids -> Forall (fun c => is_space c = false) (brackets ids).
Proof.
  induction ids as [|i ids IH]; intro H; [constructor|]. inversion H; subst. change (brackets (i :: ids)) with ((91 :: dec i ++ [93]) ++ brackets ids).
  apply Forall_app. split; auto. constructor; [reflexivity|]. apply Forall_app. split; [|repeat constructor].
  eapply Forall_impl; [apply digit_not_space|]. apply dec_pos_digits. auto.
Qed.
Definition pad_ids (ids : list Z) : list Z := firstn 4 (ids ++ [-1; -1; -1; -1]).
Definition line_ok (l : line) : Prop := key_ok (l_key l) /\ Forall (fun i => 0 <= i) (l_ids l) /\ (length (l_ids l) <= 4)%nat /\ clean (l_val l).
Lemma lex_line : forall l, line_ok l -> lex (l_key l ++ brackets (l_ids l) ++ 32 :: l_val l) = Item (l_key l) (pad_ids (l_ids l)) (l_val l).
Proof.
  intros [k ids v]. unfold line_ok. cbn [l_key l_ids l_val]. intros ((N & K & P) & I & L & V & _). unfold lex. rewrite app_assoc. rewrite words_two; auto.
  - rewrite key_part_app; auto.
    + destruct (Z.eqb_spec (last k 0) 43) as [X|X]; [congruence|].
      destruct k; [congruence|]. rewrite id_part_brackets by auto. reflexivity.
    + destruct ids; cbn; auto.
  - apply Forall_app. split; [eapply Forall_impl; [apply key_not_space|auto]|apply brackets_not_space; auto].
  - destruct k; [congruence|discriminate].
Qed.

(** *** The file *)
Fixpoint run_items (ls : list line) (st : pstate) : exn + pstate :=
  match ls with
  | [] => inr st
  | l :: r => match apply (keyword_of (l_key l)) (pad_ids (l_ids l)) (l_val l) st with inl e => inl e | inr st' => run_items r st' end
  end.
Lemma run_items_app : forall a b st, run_items (a ++ b) st = match run_items a st with inl e => inl e | inr st' => run_items b st' end.
Proof. induction a as [|l a IH]; intros b st; cbn; auto. destruct (apply _ _ _ st); auto. Qed.
Definition cr (c : Z) : Z := if c =? 13 then 10 else c.
Lemma cr_id : forall s, ~ In 13 s -> map cr s = s.
Proof.
  induction s as [|c s IH]; intro H; cbn; auto. unfold cr at 1. destruct (Z.eqb_spec c 13); [exfalso; apply H; left; auto|]. f_equal. apply IH. intro. apply H. right. auto.
Qed.
Definition body (l : line) : str := l_key l ++ brackets (l_ids l) ++ 32 :: l_val l.
Lemma key_char_no : forall c k, key_char c = false -> Forall (fun c => key_char c = true) k -> ~ In c k.
Proof. intros c k H F I. rewrite Forall_forall in F. apply F in I. congruence. Qed.
Lemma brackets_no : forall c ids, is_digit c = false -> c <> 45 -> c <> 91 -> c <> 93 -> ~ In c (brackets ids).
Proof.
  intros c ids D A B E H. unfold brackets in H. apply in_flat_map in H. destruct H as (i & _ & [H | H]); [congruence|].
  apply in_app_iff in H. destruct H as [H | [H | []]]; [|congruence]. apply dec_no in H; auto.
Qed.
Lemma body_no : forall l c, line_ok l -> c = 10 \/ c = 13 -> ~ In c (body l).
Proof.
  intros l c ((_ & K & _) & _ & _ & _ & V1 & V2) C H. unfold body in H. apply in_app_iff in H. destruct H as [H | H].
  - revert H. apply key_char_no; auto. destruct C; subst; reflexivity.
  - apply in_app_iff in H. destruct H as [H | [H | H]]; [|destruct C; lia|destruct C; subst; auto].
    revert H. apply brackets_no; destruct C; subst; try reflexivity; lia.
Qed.
Lemma file_lines : forall ls, Forall line_ok ls -> split 10 (map cr (flat_map text_of ls)) = map body ls ++ [[]].
Proof.
  induction ls as [|l ls IH]; intro H; [reflexivity|]. inversion H; subst. cbn [flat_map map app].
  assert (E : text_of l = body l ++ [10]). { unfold text_of, body. rewrite <- !app_assoc. reflexivity. }
  rewrite E, !map_app. rewrite cr_id by (apply body_no; auto). cbn [map]. change (cr 10) with 10. rewrite <- app_assoc. cbn [app].
  rewrite split_app by (apply body_no; auto). f_equal. auto.
Qed.
Lemma run_file : forall ls st, Forall line_ok ls -> run_lines (split 10 (map cr (flat_map text_of ls))) st = run_items ls st.
Proof.
  intros ls st H. rewrite file_lines by auto. revert st. induction ls as [|l ls IH]; intro st; [reflexivity|]. inversion H; subst.
  cbn [map app run_lines run_items]. unfold body. rewrite lex_line by auto. destruct (apply _ _ _ st); auto.
Qed.

(** *** Numbers *)
Lemma dec_first : forall i, match dec i with [] => False | c :: _ => is_space c = false end.
Proof. intro i. pose proof (dec_ne i). destruct (dec_trimmed i) as [E _]. destruct (dec i); [congruence|]. exact E. Qed.
Lemma dec_clean : forall i, clean (dec i).
Proof. intro i. split; [apply dec_first|]. split; apply dec_no; auto; try lia; reflexivity. Qed.
Lemma dval_app : forall a b, dval (a ++ b) = dval a * 10 ^ Z.of_nat (length b) + dval b.
Proof. intros a b. unfold dval at 1. rewrite fold_left_app. fold (dval a). apply dval_from. Qed.
Lemma dval_zeros : forall n, dval (repeat 48 n) = 0.
Proof. induction n as [|n IH]; [reflexivity|]. change (repeat 48 (S n)) with ([48] ++ repeat 48 n). rewrite dval_app, IH. reflexivity. Qed.
Lemma dec_dval : forall i, 0 <= i -> dval (dec i) = i.
Proof. intros i H. unfold dec. destruct (Z.ltb_spec i 0); [lia|]. apply dec_nat_spec. auto. Qed.
Lemma zpad_spec : forall n v, (0 < n)%nat -> 0 <= v < 10 ^ Z.of_nat n ->
  length (zpad n v) = n /\ Forall (fun c => is_digit c = true) (zpad n v) /\ dval (zpad n v) = v.
Proof.
  intros n v N H. unfold zpad, rep. pose proof (dec_len v n H N) as L. split; [|split].
  - rewrite app_length, repeat_length. lia.
  - apply Forall_app. split; [apply Forall_forall; intros c C; apply repeat_spec in C; subst; reflexivity|apply dec_pos_digits; lia].
  - rewrite dval_app, dval_zeros, dec_dval by lia. lia.
Qed.
Lemma half_even_nonneg : forall q, (0 <= q)%Q -> 0 <= half_even q.
Proof. intros q H. destruct (half_even_bounds q (Qceiling q) H (Qle_ceiling q)). auto. Qed.
Lemma forallb_digits : forall s, Forall (fun c => is_digit c = true) s -> forallb is_digit s = true.
Proof. intros s H. apply forallb_forall. apply Forall_forall. auto. Qed.
Lemma ufix_parse : forall n q, (0 < n)%nat -> (0 <= q)%Q ->
  parse_ufix (ufix n q) = Some (Qmake (half_even (q * inject_Z (10 ^ Z.of_nat n))) (Z.to_pos (10 ^ Z.of_nat n))).
Proof.
  intros n q N H. unfold ufix. set (p := 10 ^ Z.of_nat n). set (t := half_even (q * inject_Z p)).
  assert (P : 0 < p) by (apply Z.pow_pos_nonneg; lia).
  assert (T : 0 <= t). { apply half_even_nonneg. apply Qmult_le_0_compat; auto. change 0%Q with (inject_Z 0). rewrite <- Zle_Qle. lia. }
  assert (M : 0 <= t mod p < p) by (apply Z.mod_pos_bound; auto). assert (D : 0 <= t / p) by (apply Z.div_pos; lia).
  destruct (zpad_spec n (t mod p) N M) as (L & F & V). pose proof (dec_pos_digits _ D) as FD. pose proof (dec_ne (t / p)) as NE.
  unfold parse_ufix. rewrite split1_found by (apply dec_no; [reflexivity|lia]). rewrite !forallb_digits by auto.
  destruct (dec (t / p) ++ zpad n (t mod p)) as [|c r] eqn:E.
  { apply app_eq_nil in E. destruct E. congruence. }
  cbn [negb andb]. rewrite <- E. rewrite parse_digits_dval by (auto; apply Forall_app; auto). fold (dval (dec (t / p) ++ zpad n (t mod p))).
  rewrite dval_app, L, V, dec_dval by auto. cbn [option_map]. fold p. do 2 f_equal. rewrite (Z.div_mod t p) at 3 by lia. ring.
Qed.
Lemma ufix_chars : forall n q, (0 < n)%nat -> (0 <= q)%Q -> Forall (fun c => is_digit c = true \/ c = 46) (ufix n q) /\
  exists c r, ufix n q = c :: r /\ is_digit c = true.
Proof.
  intros n q N H. unfold ufix. set (p := 10 ^ Z.of_nat n). set (t := half_even (q * inject_Z p)).
  assert (P : 0 < p) by (apply Z.pow_pos_nonneg; lia).
  assert (T : 0 <= t). { apply half_even_nonneg. apply Qmult_le_0_compat; auto. change 0%Q with (inject_Z 0). rewrite <- Zle_Qle. lia. }
  assert (M : 0 <= t mod p < p) by (apply Z.mod_pos_bound; auto). assert (D : 0 <= t / p) by (apply Z.div_pos; lia).
  destruct (zpad_spec n (t mod p) N M) as (L & F & V). pose proof (dec_pos_digits _ D) as FD. pose proof (dec_ne (t / p)) as NE. split.
  - apply Forall_app. split; [eapply Forall_impl; [|exact FD]; cbn; auto|]. constructor; auto. eapply Forall_impl; [|exact F]; cbn; auto.
  - destruct (dec (t / p)) as [|c r]; [congruence|]. inversion FD; subst. cbn. eauto.
Qed.
Lemma ufix_chars_no : forall n q c, (0 < n)%nat -> (0 <= q)%Q -> is_digit c = false -> c <> 46 -> ~ In c (ufix n q).
Proof. intros n q c N H D P I. destruct (ufix_chars n q N H) as [F _]. rewrite Forall_forall in F. destruct (F c I); congruence. Qed.
Lemma space_not_fix : forall c, is_digit c = true \/ c = 46 \/ c = 43 \/ c = 45 -> is_space c = false.
Proof. intros c [H | [-> | [-> | ->]]]; [apply digit_not_space; auto|reflexivity|reflexivity|reflexivity]. Qed.
Lemma all_trimmed : forall s, Forall (fun c => is_space c = false) s -> trimmed s.
Proof. intros s H. split; [destruct H; cbn; auto|]. apply Forall_rev in H. destruct H; cbn; auto. Qed.
Lemma fix_chars : forall b n q, (0 < n)%nat -> Forall (fun c => is_digit c = true \/ c = 46 \/ c = 43 \/ c = 45) (fix_ b n q) /\ fix_ b n q <> [].
Proof.
  intros b n q N. unfold fix_. destruct (Qle_bool 0 q) eqn:E.
  - apply Qle_bool_iff in E. destruct (ufix_chars n q N E) as (F & c & r & U & _). rewrite U in *. split; [|destruct b; discriminate].
    assert (G : Forall (fun c => is_digit c = true \/ c = 46 \/ c = 43 \/ c = 45) (c :: r)) by (eapply Forall_impl; [|exact F]; cbn; intuition).
    destruct b; cbn; auto.
  - assert (E' : (0 <= - q)%Q). { destruct (Qlt_le_dec q 0); [lra|]. apply Qle_bool_iff in q0. congruence. }
    destruct (ufix_chars n (- q)%Q N E') as (F & c & r & U & _). rewrite U in *. split; [|discriminate].
    constructor; auto. eapply Forall_impl; [|exact F]; cbn; intuition.
Qed.
Lemma fix_clean : forall b n q, (0 < n)%nat -> clean (fix_ b n q).
Proof.
  intros b n q N. destruct (fix_chars b n q N) as [F E]. destruct (fix_ b n q) as [|c r]; [congruence|]. split; [inversion F; apply space_not_fix; auto|].
  rewrite Forall_forall in F. split; intro H; destruct (F _ H) as [X | [X | [X | X]]]; try discriminate X; lia.
Qed.
Lemma fix_parse : forall b n q, (0 < n)%nat -> parse_float (fix_ b n q) = Some (decimals n q).
Proof.
  intros b n q N. destruct (fix_chars b n q N) as [F _]. unfold parse_float. rewrite strip_id by (apply all_trimmed; eapply Forall_impl; [|exact F]; apply space_not_fix).
  unfold fix_, decimals. destruct (Qle_bool 0 q) eqn:E.
  - apply Qle_bool_iff in E. pose proof (ufix_parse n q N E) as P. destruct (ufix_chars n q N E) as (_ & c & r & U & D). destruct b; cbn [app].
    + exact P.
    + rewrite U in *. destruct (Z.eqb_spec c 45); [subst; discriminate|]. destruct (Z.eqb_spec c 43); [subst; discriminate|]. exact P.
  - assert (E' : (0 <= - q)%Q). { destruct (Qlt_le_dec q 0); [lra|]. apply Qle_bool_iff in q0. congruence. }
    cbn [Z.eqb]. rewrite ufix_parse by auto. reflexivity.
Qed.
