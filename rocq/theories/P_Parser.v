(** Proofs about the argument parsers. *)
From Coq Require Import List ZArith Bool Lia.
From Verif Require Import M_Parser S_Parser P_Str.
Import ListNotations.
Open Scope Z_scope.
Ltac Zify.zify_post_hook ::= Z.div_mod_to_equations.

(** *** digits *)
Lemma is_digit_iff : forall c, is_digit c = true <-> digit c.
Proof. intro c. unfold is_digit, digit. rewrite andb_true_iff, !Z.leb_le. tauto. Qed.
Lemma digits_iff : forall s, forallb is_digit s = true <-> Forall digit s.
Proof. intro s. rewrite forallb_forall, Forall_forall. split; intros H c I; apply is_digit_iff; auto. Qed.
Lemma number_fold : forall s a, fold_left (fun a c => 10 * a + (c - 48)) s a = a * 10 ^ Z.of_nat (length s) + number s.
Proof.
  induction s as [|c s IH]; intro a; [cbn; lia|]. cbn [fold_left length number]. rewrite IH, Nat2Z.inj_succ, Z.pow_succ_r by lia. ring.
Qed.
Lemma dval_number : forall s, dval s = number s.
Proof. intro s. unfold dval. rewrite number_fold. lia. Qed.
Lemma number_app : forall a b, number (a ++ b) = number a * 10 ^ Z.of_nat (length b) + number b.
Proof.
  induction a as [|c a IH]; intro b; cbn [app number]; [lia|]. rewrite IH, app_length, Nat2Z.inj_add, Z.pow_add_r by lia. ring.
Qed.
Definition group (g : str) : Prop := g <> [] /\ Forall digit g.
Lemma join_cons : forall c s l, join c (s :: l) = s ++ match l with [] => [] | _ => c :: join c l end.
Proof. intros. destruct l; cbn [join]; [rewrite app_nil_r; auto|auto]. Qed.
Lemma parse_digits_fwd : forall s b acc n, parse_digits b acc s = Some n ->
  exists g gs, s = join 95 (g :: gs) /\ Forall digit g /\ Forall group gs /\ (b = true \/ g <> []) /\
    n = acc * 10 ^ Z.of_nat (length (g ++ concat gs)) + number (g ++ concat gs).
Proof.
  induction s as [|c s IH]; intros b acc n H; cbn [parse_digits] in H.
  - destruct b; [|discriminate]. inversion H; subst. exists [], []. cbn. repeat split; auto. lia.
  - destruct (is_digit c) eqn:D.
    + apply IH in H. destruct H as (g & gs & E & G & GS & _ & V). exists (c :: g), gs. apply is_digit_iff in D.
      split; [rewrite join_cons in *; cbn [app]; congruence|]. split; [constructor; auto|]. split; auto. split; [right; discriminate|].
      cbn [app length number]. rewrite Nat2Z.inj_succ, Z.pow_succ_r by lia. rewrite V. ring.
    + destruct ((c =? 95) && b) eqn:C; [|discriminate]. apply andb_true_iff in C. destruct C as [C ->]. apply Z.eqb_eq in C. subst c.
      apply IH in H. destruct H as (g & gs & E & G & GS & N & V). destruct N as [N|N]; [discriminate|].
      exists [], (g :: gs). split; [rewrite join_cons; cbn [app]; congruence|]. repeat split; auto.
      * constructor; auto. split; auto.
Qed.
Lemma parse_digits_digits : forall g b acc r, Forall digit g -> parse_digits b acc (g ++ r) = match g with [] => parse_digits b acc r | _ => parse_digits true (fold_left (fun a c => 10 * a + (c - 48)) g acc) r end.
Proof.
  induction g as [|c g IH]; intros b acc r H; [reflexivity|]. inversion H; subst. cbn [app parse_digits fold_left]. apply is_digit_iff in H2. rewrite H2. rewrite IH by auto. destruct g; reflexivity.
Qed.
Lemma parse_digits_bwd : forall gs g b acc, Forall digit g -> Forall group gs -> b = true \/ g <> [] ->
  parse_digits b acc (join 95 (g :: gs)) = Some (acc * 10 ^ Z.of_nat (length (g ++ concat gs)) + number (g ++ concat gs)).
Proof.
  induction gs as [|h gs IH]; intros g b acc G GS N; rewrite join_cons.
  - rewrite parse_digits_digits by auto. cbn [concat]. rewrite app_nil_r. destruct g as [|c g]; [destruct N; [subst; cbn; f_equal; lia|congruence]|].
    cbn [parse_digits]. rewrite number_fold. auto.
  - inversion GS; subst. destruct H1 as [HN HD]. rewrite parse_digits_digits by auto.
    assert (T : forall a, parse_digits true a (95 :: join 95 (h :: gs)) = Some (a * 10 ^ Z.of_nat (length (h ++ concat gs)) + number (h ++ concat gs))).
    { intro a. cbn [parse_digits]. change (is_digit 95) with false. rewrite Z.eqb_refl. cbn [andb]. apply IH; auto. }
    cbn [concat]. destruct g as [|c g].
    + destruct N as [->|N]; [|congruence]. rewrite T. reflexivity.
    + rewrite T. rewrite number_fold. f_equal. generalize (h ++ concat gs) as w. intro w. rewrite (number_app (c :: g)), app_length, Nat2Z.inj_add, Z.pow_add_r by lia. ring.
Qed.
Lemma parse_digits_iff : forall s n, parse_digits false 0 s = Some n <-> exists gs, digit_groups gs /\ s = join 95 gs /\ n = number (concat gs).
Proof.
  intros s n. split.
  - intro H. apply parse_digits_fwd in H. destruct H as (g & gs & E & G & GS & N & V). destruct N as [N|N]; [discriminate|]. exists (g :: gs).
    split; [split; [discriminate|constructor; [split; auto|exact GS]]|]. split; auto.
  - intros (gs & [N H] & -> & ->). destruct gs as [|g gs]; [congruence|]. inversion H; subst. destruct H2 as [GN GD]. rewrite parse_digits_bwd; auto.
Qed.

(** *** strip *)
Lemma strip_parts : forall s, exists p q, spaces p /\ spaces q /\ s = p ++ strip s ++ q.
Proof.
  intro s. destruct (lstrip_suffix s) as (p & P1 & P2). destruct (lstrip_suffix (rev (lstrip s))) as (q & Q1 & Q2).
  exists p, (rev q). split; [exact P2|]. split; [apply Forall_rev; exact Q2|]. unfold strip, rstrip.
  rewrite <- rev_app_distr, <- Q1, rev_involutive. exact P1.
Qed.
Lemma digit_space : forall c, digit c -> is_space c = false.
Proof. intros c H. apply digit_not_space, is_digit_iff. auto. Qed.
Lemma join_digits_edge : forall gs, digit_groups gs -> exists c s, join 95 gs = c :: s /\ digit c.
Proof.
  intros gs [N H]. destruct gs as [|g gs]; [congruence|]. inversion H; subst. destruct H2 as [GN GD]. destruct g as [|c g]; [congruence|].
  rewrite join_cons. exists c. eexists. split; [reflexivity|]. inversion GD; auto.
Qed.
Lemma join_digits_last : forall gs, digit_groups gs -> exists c s, rev (join 95 gs) = c :: s /\ digit c.
Proof.
  intros gs [N H]. induction gs as [|g gs IH]; [congruence|]. inversion H; subst. destruct H2 as [GN GD]. rewrite join_cons.
  destruct gs as [|h gs].
  - rewrite app_nil_r. destruct (rev g) as [|c r] eqn:E; [exfalso; apply GN; rewrite <- (rev_involutive g), E; auto|]. exists c, r. split; auto.
    apply Forall_rev in GD. rewrite E in GD. inversion GD; auto.
  - destruct IH as (c & s & E & D); [discriminate|auto|]. rewrite rev_app_distr. cbn [rev]. rewrite E. cbn [app]. eexists _, _. split; [reflexivity|auto].
Qed.
Lemma strip_mid : forall p m q c s d r, spaces p -> spaces q -> m = c :: s -> is_space c = false -> rev m = d :: r -> is_space d = false -> strip (p ++ m ++ q) = m.
Proof. intros p m q c s d r P Q E C R D. rewrite strip_pad by auto. apply strip_id. split; [rewrite E; auto|rewrite R; auto]. Qed.
Lemma parse_int_iff : forall t n, parse_int t = Some n <-> int_text t n.
Proof.
  intros t n. split.
  - intro H. unfold parse_int in H. destruct (strip_parts t) as (p & q & P & Q & E). rewrite E. destruct (strip t) as [|c r]; [discriminate|].
    destruct (Z.eqb_spec c 45).
    + subst c. destruct (parse_digits false 0 r) as [m|] eqn:D; [|discriminate]. cbn in H. inversion H; subst. apply parse_digits_iff in D. destruct D as (gs & G & -> & ->).
      cbn [app]. apply it_minus; auto.
    + destruct (Z.eqb_spec c 43).
      * subst c. apply parse_digits_iff in H. destruct H as (gs & G & -> & ->). cbn [app]. apply it_plus; auto.
      * apply parse_digits_iff in H. destruct H as (gs & G & EG & ->). rewrite EG. apply it_plain; auto.
  - intro H. destruct H as [p gs q P Q G|p gs q P Q G|p gs q P Q G];
      destruct (join_digits_edge gs G) as (c & s & E1 & D1); destruct (join_digits_last gs G) as (d & r & E2 & D2); unfold parse_int.
    + rewrite (strip_mid p (join 95 gs) q c s d r) by auto using digit_space. rewrite E1. unfold digit in D1. destruct (Z.eqb_spec c 45); [lia|]. destruct (Z.eqb_spec c 43); [lia|].
      apply parse_digits_iff. exists gs. auto.
    + change (p ++ 43 :: join 95 gs ++ q) with (p ++ (43 :: join 95 gs) ++ q).
      rewrite (strip_mid p (43 :: join 95 gs) q 43 (join 95 gs) d (r ++ [43])); auto using digit_space; [|cbn [rev]; rewrite E2; auto].
      cbn [Z.eqb Pos.eqb]. apply parse_digits_iff. exists gs. auto.
    + change (p ++ 45 :: join 95 gs ++ q) with (p ++ (45 :: join 95 gs) ++ q).
      rewrite (strip_mid p (45 :: join 95 gs) q 45 (join 95 gs) d (r ++ [45])); auto using digit_space; [|cbn [rev]; rewrite E2; auto].
      cbn [Z.eqb Pos.eqb]. assert (K : parse_digits false 0 (join 95 gs) = Some (number (concat gs))) by (apply parse_digits_iff; exists gs; auto). rewrite K. reflexivity.
Qed.
Lemma int_text_fun : forall t n m, int_text t n -> int_text t m -> n = m.
Proof. intros t n m H K. apply parse_int_iff in H. apply parse_int_iff in K. congruence. Qed.
(** an integer has no '~' and no ',' *)
Lemma join_chars : forall gs c, Forall group gs -> In c (join 95 gs) -> digit c \/ c = 95.
Proof.
  induction gs as [|g gs IH]; intros c H I; [destruct I|]. inversion H; subst. rewrite join_cons in I. apply in_app_or in I. destruct I as [I|I].
  - destruct H2 as [_ D]. rewrite Forall_forall in D. auto.
  - destruct gs as [|h gs]; [destruct I|]. destruct I as [<-|I]; auto.
Qed.
Lemma int_chars : forall t n c, int_text t n -> In c t -> is_space c = true \/ digit c \/ c = 95 \/ c = 43 \/ c = 45.
Proof.
  intros t n c H I. unfold spaces in *. assert (F : forall p : str, Forall (fun c => is_space c = true) p -> In c p -> is_space c = true) by (intros p0 F0; rewrite Forall_forall in F0; auto).
  destruct H as [p gs q P Q [_ G]|p gs q P Q [_ G]|p gs q P Q [_ G]]; apply in_app_or in I; (destruct I as [I|I]; [left; eauto|]).
  - apply in_app_or in I. destruct I as [I|I]; [apply join_chars in I; tauto|left; eauto].
  - destruct I as [<-|I]; [tauto|]. apply in_app_or in I. destruct I as [I|I]; [apply join_chars in I; tauto|left; eauto].
  - destruct I as [<-|I]; [tauto|]. apply in_app_or in I. destruct I as [I|I]; [apply join_chars in I; tauto|left; eauto].
Qed.
Lemma int_no : forall t n c, int_text t n -> c = 126 \/ c = 44 -> ~ In c t.
Proof. intros t n c H C I. pose proof (int_chars t n c H I) as K. unfold digit in K. destruct C as [->| ->]; destruct K as [K|K]; try (vm_compute in K; discriminate); lia. Qed.

(** *** ranges *)
Lemma py_range_len : forall a b, Z.of_nat (length (py_range a b)) = Z.max 0 (b - a + 1).
Proof. intros. unfold py_range. rewrite map_length, seq_length. lia. Qed.
Lemma py_range_nth : forall a b i, (i < length (py_range a b))%nat -> nth i (py_range a b) 0 = a + Z.of_nat i.
Proof.
  intros a b i H. unfold py_range in *. rewrite map_length, seq_length in H. rewrite (nth_indep _ 0 (a + Z.of_nat 0)) by (rewrite map_length, seq_length; auto).
  rewrite (map_nth (fun k => a + Z.of_nat k)). rewrite seq_nth by auto. reflexivity.
Qed.
Lemma interval_iff : forall a b l, interval a b l <-> l = py_range a b.
Proof.
  intros a b l. split.
  - intros [L N]. apply (nth_ext _ _ 0 0); [pose proof (py_range_len a b); lia|]. intros i I. rewrite N by auto. symmetry. apply py_range_nth. pose proof (py_range_len a b). lia.
  - intros ->. split; [apply py_range_len|apply py_range_nth].
Qed.
Lemma py_range_in : forall a b x, In x (py_range a b) <-> a <= x <= b.
Proof.
  intros a b x. unfold py_range. rewrite in_map_iff. split.
  - intros (k & <- & K). apply in_seq in K. lia.
  - intro H. exists (Z.to_nat (x - a)). split; [lia|]. apply in_seq. lia.
Qed.
Lemma ints_iff : forall s l, int_item_or_range s = Some l <-> ints_text s l.
Proof.
  intros s l. unfold int_item_or_range. split.
  - destruct (split1 126 s) as [[a b]|] eqn:S.
    + apply split1_some in S. destruct S as [-> _]. destruct (parse_int a) as [x|] eqn:A; [|discriminate]. destruct (parse_int b) as [y|] eqn:B; [|discriminate].
      intro H. inversion H; subst. apply st_range with x y; try apply parse_int_iff; auto. apply interval_iff. auto.
    + destruct (parse_int s) as [x|] eqn:A; [|discriminate]. intro H. inversion H; subst. constructor. apply parse_int_iff. auto.
  - intro H. destruct H as [t n H|t u a b l A B I].
    + rewrite split1_none by (eapply int_no; eauto). apply parse_int_iff in H. rewrite H. auto.
    + rewrite split1_found by (eapply int_no; eauto). apply parse_int_iff in A, B. rewrite A, B. apply interval_iff in I. congruence.
Qed.
(** surrounding spaces do not matter *)
Lemma strip_strip : forall p s q, spaces p -> spaces q -> strip (p ++ s ++ q) = strip s.
Proof. exact strip_pad. Qed.
Lemma parse_int_pad : forall p s q, spaces p -> spaces q -> parse_int (p ++ s ++ q) = parse_int s.
Proof. intros. unfold parse_int. rewrite strip_pad by auto. auto. Qed.
Lemma spaces_no : forall p c, spaces p -> is_space c = false -> ~ In c p.
Proof. intros p c P C I. unfold spaces in P. rewrite Forall_forall in P. rewrite (P c I) in C. discriminate. Qed.
Lemma split1_pad : forall c p s q, spaces p -> is_space c = false -> split1 c (p ++ s ++ q) = match split1 c s with Some (a, b) => Some (p ++ a, b ++ q) | None => match split1 c q with Some (a, b) => Some (p ++ s ++ a, b) | None => None end end.
Proof.
  intros c p s q P C. assert (X : forall s, split1 c (s ++ q) = match split1 c s with Some (a, b) => Some (a, b ++ q) | None => match split1 c q with Some (a, b) => Some (s ++ a, b) | None => None end end).
  { induction s0 as [|x s0 IH]; cbn; [destruct (split1 c q) as [[]|]; auto|]. destruct (x =? c); auto. rewrite IH. destruct (split1 c s0) as [[]|]; auto. destruct (split1 c q) as [[]|]; auto. }
  induction p as [|x p IH]; cbn [app]; [rewrite X; destruct (split1 c s) as [[]|]; auto|]. inversion P; subst. cbn [split1]. destruct (Z.eqb_spec x c); [congruence|].
  rewrite IH by auto. destruct (split1 c s) as [[]|]; auto. destruct (split1 c q) as [[]|]; auto.
Qed.
Lemma split1_pad' : forall c p s q, spaces p -> spaces q -> is_space c = false -> split1 c (p ++ s ++ q) = match split1 c s with Some (a, b) => Some (p ++ a, b ++ q) | None => None end.
Proof. intros c p s q P Q C. rewrite split1_pad by auto. rewrite (split1_none c q) by (apply spaces_no; auto). auto. Qed.
Lemma parse_pad_l : forall p s, spaces p -> parse_int (p ++ s) = parse_int s.
Proof. intros p s P. rewrite <- (app_nil_r s) at 1. apply parse_int_pad; auto. constructor. Qed.
Lemma parse_pad_r : forall q s, spaces q -> parse_int (s ++ q) = parse_int s.
Proof. intros q s Q. apply (parse_int_pad [] s q); auto. constructor. Qed.
Lemma range_pad : forall p s q, spaces p -> spaces q -> int_item_or_range (p ++ s ++ q) = int_item_or_range s.
Proof.
  intros p s q P Q. unfold int_item_or_range. rewrite split1_pad' by auto. destruct (split1 126 s) as [[a b]|].
  - rewrite parse_pad_l, parse_pad_r by auto. auto.
  - rewrite parse_int_pad by auto. auto.
Qed.
Lemma baseline_pad : forall p s q, spaces p -> spaces q -> baseline_item (p ++ s ++ q) = baseline_item s.
Proof.
  intros p s q P Q. unfold baseline_item. rewrite split1_pad' by auto. destruct (split1 45 s) as [[a b]|]; auto.
  assert (E1 : int_item_or_range (p ++ a) = int_item_or_range a). { rewrite <- (app_nil_r a) at 1. apply range_pad; auto. constructor. }
  assert (E2 : int_item_or_range (b ++ q) = int_item_or_range b). { apply (range_pad [] b q); auto. constructor. }
  rewrite E1, E2. auto.
Qed.
Lemma strip_blank : forall s, strip s = [] <-> spaces s.
Proof.
  intro s. split.
  - intro H. destruct (strip_parts s) as (p & q & P & Q & E). rewrite H in E. rewrite E. apply Forall_app. auto.
  - intro H. rewrite <- (app_nil_r s). change (s ++ []) with (s ++ [] ++ []). rewrite strip_pad; auto.
Qed.
Lemma prod_flat : forall (l m : list Z), flat_map (fun i => map (fun j => (i, j)) m) l = list_prod l m.
Proof. induction l as [|x l IH]; intro m; cbn; auto. rewrite IH. auto. Qed.
Lemma baseline_iff : forall s l, baseline_item s = Some l <-> exists t u a b, s = t ++ 45 :: u /\ ~ In 45 t /\ ints_text t a /\ ints_text u b /\ l = list_prod a b.
Proof.
  intros s l. unfold baseline_item. split.
  - destruct (split1 45 s) as [[t u]|] eqn:S; [|discriminate]. apply split1_some in S. destruct S as [-> N]. destruct (int_item_or_range t) as [a|] eqn:A; [|discriminate].
    destruct (int_item_or_range u) as [b|] eqn:B; [|discriminate]. intro H. inversion H; subst. exists t, u, a, b. apply ints_iff in A, B. rewrite prod_flat. auto.
  - intros (t & u & a & b & -> & N & A & B & ->). rewrite split1_found by auto. apply ints_iff in A, B. rewrite A, B, prod_flat. auto.
Qed.
Lemma fields_iff : forall s fs, fields s fs <-> split 44 s = fs.
Proof.
  intros s fs. split.
  - induction 1 as [s N|s r fs N _ IH]; [apply split_none; auto|]. rewrite split_app by auto. congruence.
  - revert s. induction fs as [|f fs IH]; intros s H; [exfalso; eapply split_nonempty; eauto|].
    pose proof (split_no_sep 44 s) as NS. rewrite H in NS. inversion NS; subst. pose proof (join_split 44 s) as J. rewrite H in J.
    destruct fs as [|g fs]; [cbn in J; subst; constructor; auto|]. change (join 44 (f :: g :: fs)) with (f ++ 44 :: join 44 (g :: fs)) in J. subst s.
    constructor; auto. apply IH. rewrite split_app in H by auto. congruence.
Qed.
Lemma each_item_iff : forall {A} (f : str -> option (list A)) (D : str -> list A -> Prop) fs l,
  (forall s v, (match strip s with [] => Some [] | i => f i end) = Some v <-> D s v) ->
  (each_item f fs = Some l <-> exists ls, Forall2 D fs ls /\ l = concat ls).
Proof.
  intros A f D fs l HD. revert l. induction fs as [|s fs IH]; intro l; cbn [each_item].
  - split; [intro H; inversion H; exists []; auto|]. intros (ls & F & ->). inversion F; auto.
  - pose proof (HD s) as HS. destruct (strip s) as [|c r].
    + rewrite IH. split.
      * intros (ls & F & ->). exists ([] :: ls). split; [constructor; auto; apply HS; auto|auto].
      * intros (ls & F & ->). inversion F; subst. apply HS in H1. inversion H1; subst. exists l'. auto.
    + destruct (f (c :: r)) as [v|].
      * split.
        -- destruct (each_item f fs) as [vs|]; [|discriminate]. intro H. inversion H; subst. destruct (proj1 (IH vs) eq_refl) as (ls & F & ->). exists (v :: ls). split; [constructor; auto; apply HS; auto|auto].
        -- intros (ls & F & ->). inversion F; subst. apply HS in H1. inversion H1; subst. rewrite (proj2 (IH (concat l'))) by eauto. auto.
      * split; [discriminate|]. intros (ls & F & ->). inversion F; subst. apply HS in H1. discriminate.
Qed.
Lemma int_field_iff : forall s v, (match strip s with [] => Some [] | i => int_item_or_range i end) = Some v <-> int_field s v.
Proof.
  intros s v. destruct (strip_parts s) as (p & q & P & Q & E). destruct (strip s) as [|c r] eqn:S.
  - split.
    + intro H. inversion H; subst. constructor. apply strip_blank. auto.
    + intro H. destruct H as [t T|t l T]; auto. exfalso. apply ints_iff in T. assert (B : spaces t) by (apply strip_blank; auto).
      unfold int_item_or_range in T. rewrite split1_none in T by (apply spaces_no; auto). unfold parse_int in T. rewrite S in T. discriminate.
  - split.
    + intro H. apply if_ints. apply ints_iff. rewrite E. rewrite range_pad by auto. auto.
    + intro H. destruct H as [t T|t l T]; [apply strip_blank in T; congruence|]. apply ints_iff in T. rewrite E in T. rewrite range_pad in T by auto. auto.
Qed.
Lemma baseline_field_iff : forall s v, (match strip s with [] => Some [] | i => baseline_item i end) = Some v <-> baseline_field s v.
Proof.
  intros s v. destruct (strip_parts s) as (p & q & P & Q & E). destruct (strip s) as [|c r] eqn:S.
  - split.
    + intro H. inversion H; subst. constructor. apply strip_blank. auto.
    + intro H. destruct H as [t T|t u l m N T U]; auto. exfalso. apply strip_blank in S. apply (spaces_no _ 45 S eq_refl). apply in_or_app. right. left. auto.
  - split.
    + intro H. assert (K : baseline_item s = Some v) by (rewrite E, baseline_pad; auto). apply baseline_iff in K. destruct K as (t & u & a & b & -> & N & A & B & ->). constructor; auto.
    + intro H. assert (K : baseline_item s = Some v).
      { destruct H as [t T|t u l m N T U]; [apply strip_blank in T; congruence|]. apply baseline_iff. exists t, u, l, m. auto. }
      rewrite E, baseline_pad in K by auto. auto.
Qed.

(** *** host names *)
Lemma number_bound : forall s, Forall digit s -> 0 <= number s < 10 ^ Z.of_nat (length s).
Proof.
  induction 1 as [|c s C F IH]; [cbn; lia|]. cbn [number length]. rewrite Nat2Z.inj_succ, Z.pow_succ_r by lia. unfold digit in C. nia.
Qed.
Lemma number_inj : forall a b, Forall digit a -> Forall digit b -> length a = length b -> number a = number b -> a = b.
Proof.
  induction a as [|x a IH]; intros [|y b] A B L E; cbn in L; try discriminate; auto. inversion A; inversion B; subst. inversion L as [L']. cbn [number] in E. rewrite L' in E.
  pose proof (number_bound a H2). pose proof (number_bound b H6). rewrite L' in H. unfold digit in *.
  assert (x = y) by nia. subst y. f_equal. apply IH; auto. lia.
Qed.
Lemma canonical_len : forall n s, canonical n s -> n <> 0 -> 10 ^ (Z.of_nat (length s) - 1) <= n < 10 ^ Z.of_nat (length s).
Proof.
  intros n s (N & D & V & H) NZ. pose proof (number_bound s D). split; [|lia]. destruct s as [|c s]; [congruence|]. destruct H as [H|H]; [|inversion H; subst; cbn in NZ; lia].
  cbn [hd] in H. inversion D; subst. cbn [number length]. replace (Z.of_nat (S (length s)) - 1) with (Z.of_nat (length s)) by lia. pose proof (number_bound s H4). unfold digit in H3. nia.
Qed.
Lemma canonical_fun : forall n s t, canonical n s -> canonical n t -> s = t.
Proof.
  intros n s t S T. destruct (Z.eq_dec n 0) as [->|NZ].
  - assert (Z0 : forall u, canonical 0 u -> u = [48]).
    { intros u (N & D & V & H). destruct H as [H|H]; auto. destruct u as [|c u]; [congruence|]. cbn [hd number] in *. inversion D; subst. pose proof (number_bound u H3). unfold digit in H2.
      assert (0 < 10 ^ Z.of_nat (length u)) by (apply Z.pow_pos_nonneg; lia). nia. }
    rewrite (Z0 s S), (Z0 t T). auto.
  - pose proof (canonical_len n s S NZ) as [S1 S2]. pose proof (canonical_len n t T NZ) as [T1 T2]. destruct S as (SN & SD & SV & _). destruct T as (TN & TD & TV & _).
    apply number_inj; auto; [|congruence].
    assert (K : forall a b : nat, (0 < b)%nat -> 10 ^ (Z.of_nat b - 1) <= n < 10 ^ Z.of_nat a -> (b <= a)%nat).
    { intros a b B H. destruct (Nat.le_gt_cases b a); auto. exfalso. assert (10 ^ Z.of_nat a <= 10 ^ (Z.of_nat b - 1)) by (apply Z.pow_le_mono_r; lia). lia. }
    assert (0 < length s)%nat by (destruct s; [congruence|cbn; lia]). assert (0 < length t)%nat by (destruct t; [congruence|cbn; lia]).
    pose proof (K (length s) (length t)). pose proof (K (length t) (length s)). lia.
Qed.
Lemma digits_lead : forall fuel n acc, 0 <= n < 2 ^ Z.of_nat fuel -> (0 < fuel)%nat -> n = 0 \/ hd 0 (digits fuel n acc) <> 48.
Proof.
  induction fuel as [|k IH]; intros n acc H F; [lia|]. cbn [digits]. destruct (Z.ltb_spec n 10); [cbn [hd]; lia|]. right.
  rewrite Nat2Z.inj_succ, Z.pow_succ_r in H by lia. destruct (IH (n / 10) ((48 + n mod 10) :: acc)); auto; [|destruct k; [cbn in H; lia|lia]|lia].
  split; [apply Z.div_pos; lia|]. assert (n / 10 * 10 <= n) by lia. assert (0 <= n / 10) by (apply Z.div_pos; lia). nia.
Qed.
Lemma dec_canonical : forall n, 0 <= n -> canonical n (dec n).
Proof.
  intros n H. unfold dec. destruct (Z.ltb_spec n 0); [lia|]. destruct (dec_nat_spec n H) as (N & D & V).
  split; [auto|]. split; [eapply Forall_impl; [|exact D]; intros; apply is_digit_iff; auto|]. split; [rewrite <- dval_number; auto|].
  destruct (Z.eq_dec n 0) as [->|NZ]; [right; reflexivity|]. left. unfold dec_nat. destruct (digits_lead (S (Z.to_nat (Z.log2 n))) n []); auto; try lia.
  split; auto. pose proof (Z.log2_spec n ltac:(lia)) as [_ L]. rewrite Nat2Z.inj_succ, Z2Nat.id by apply Z.log2_nonneg. exact L.
Qed.
Lemma canonical_iff : forall n s, 0 <= n -> (canonical n s <-> s = dec n).
Proof. intros n s H. split; [intro C; eapply canonical_fun; [exact C|apply dec_canonical; auto]|intros ->; apply dec_canonical; auto]. Qed.
Lemma num_number : forall s, s <> [] -> Forall digit s -> num s = number s.
Proof. intros s N D. unfold num. rewrite parse_digits_dval; auto; [|eapply Forall_impl; [|exact D]; intros; apply is_digit_iff; auto]. cbv iota. rewrite number_fold. lia. Qed.
Lemma byte_text_iff : forall s, byte_text s = true <-> byte_digits s.
Proof. intro s. unfold byte_text, byte_digits. rewrite !andb_true_iff, digits_iff, !Z.leb_le. intuition lia. Qed.
Lemma byte_no : forall s c, byte_digits s -> ~ digit c -> ~ In c s.
Proof. intros s c [D _] N I. rewrite Forall_forall in D. auto. Qed.
Lemma py_range_one : forall a, py_range a a = [a].
Proof. intro a. unfold py_range. replace (Z.to_nat (a + 1 - a)) with 1%nat by lia. cbn. f_equal. lia. Qed.
Lemma byte_ne : forall s, byte_digits s -> s <> [].
Proof. intros s [_ L] E. subst. cbn in L. lia. Qed.
Lemma byte_range_iff : forall s l, byte_range s = Some l <-> byte_span s l.
Proof.
  intros s l. unfold byte_range. split.
  - destruct (split1 126 s) as [[a b]|] eqn:S.
    + apply split1_some in S. destruct S as [-> _]. destruct (byte_text a && byte_text b) eqn:T; [|discriminate]. apply andb_true_iff in T. rewrite !byte_text_iff in T. destruct T as [A B].
      intro H. inversion H; subst. constructor; auto. rewrite <- !num_number by (try apply byte_ne; try (apply A); try (apply B); auto). apply interval_iff. auto.
    + destruct (byte_text s) eqn:T; [|discriminate]. apply byte_text_iff in T. intro H. inversion H; subst. rewrite py_range_one. rewrite num_number by (try apply byte_ne; try apply T; auto). constructor. auto.
  - intro H. destruct H as [t T|t u l T U I].
    + rewrite split1_none by (apply byte_no; auto; unfold digit; lia). rewrite (proj2 (byte_text_iff t) T), py_range_one. rewrite num_number by (try apply byte_ne; try apply T; auto). auto.
    + rewrite split1_found by (apply byte_no; auto; unfold digit; lia). rewrite (proj2 (byte_text_iff t) T), (proj2 (byte_text_iff u) U). cbn [andb].
      apply interval_iff in I. rewrite !num_number by (try apply byte_ne; try apply T; try apply U; auto). congruence.
Qed.
Lemma byte_span_chars : forall s l c, byte_span s l -> In c s -> digit c \/ c = 126.
Proof.
  intros s l c H I. destruct H as [t [T _]|t u l [T _] [U _] _].
  - rewrite Forall_forall in T. auto.
  - rewrite Forall_forall in T, U. apply in_app_or in I. destruct I as [I|[I|I]]; auto.
Qed.
Lemma byte_span_nonneg : forall s l x, byte_span s l -> In x l -> 0 <= x.
Proof.
  intros s l x H I. destruct H as [t [T _]|t u l [T _] [U _] J].
  - destruct I as [<-|[]]. apply number_bound. auto.
  - apply interval_iff in J. subst l. apply py_range_in in I. pose proof (number_bound t T). lia.
Qed.
Lemma flat4 : forall (l1 l2 l3 l4 : list Z) (f : Z -> Z -> Z -> Z -> str),
  flat_map (fun a => flat_map (fun b => flat_map (fun c => map (fun d => f a b c d) l4) l3) l2) l1 =
  map (fun q => f (fst (fst (fst q))) (snd (fst (fst q))) (snd (fst q)) (snd q)) (list_prod (list_prod (list_prod l1 l2) l3) l4).
Proof.
  intros l1 l2 l3 l4 f.
  assert (G : forall (B C : Type) (l : list B) (m : list C) (g : B * C -> str), map g (list_prod l m) = flat_map (fun a => map (fun b => g (a, b)) m) l).
  { induction l as [|x l IH]; intros m g; cbn; auto. rewrite map_app, IH, map_map. auto. }
  assert (G2 : forall (B C D : Type) (l : list B) (m : list C) (g : B * C -> list D), flat_map g (list_prod l m) = flat_map (fun a => flat_map (fun b => g (a, b)) m) l).
  { induction l as [|x l IH]; intros m g; cbn; auto. rewrite flat_map_app, IH. f_equal. clear. induction m as [|y m IH]; cbn; auto. rewrite IH. auto. }
  rewrite G. rewrite !G2. reflexivity.
Qed.
Lemma Forall2_map_l : forall {B C} (P : B -> C -> Prop) (f : B -> C) l hs, (forall x h, In x l -> (P x h <-> h = f x)) -> (Forall2 P l hs <-> hs = map f l).
Proof.
  intros B C P f l. induction l as [|x l IH]; intros hs H; cbn.
  - split; [intro K; inversion K; auto|intros ->; constructor].
  - split.
    + intro K. inversion K; subst. apply H in H2; [|left; auto]. subst. f_equal. apply IH; auto. intros; apply H; right; auto.
    + intros ->. constructor; [apply H; [left; auto|auto]|]. apply IH; auto. intros; apply H; right; auto.
Qed.
Lemma ipv4_iff : forall s l, ipv4_item s = Some l <-> ipv4_text s l.
Proof.
  intros s l.
  assert (K : forall l1 l2 l3 l4 hs, (forall x, In x l1 -> 0 <= x) -> (forall x, In x l2 -> 0 <= x) -> (forall x, In x l3 -> 0 <= x) -> (forall x, In x l4 -> 0 <= x) ->
    (Forall2 address (list_prod (list_prod (list_prod l1 l2) l3) l4) hs <->
     hs = flat_map (fun a => flat_map (fun b => flat_map (fun c => map (fun d => show_ip a b c d) l4) l3) l2) l1)).
  { intros l1 l2 l3 l4 hs N1 N2 N3 N4. rewrite flat4. apply Forall2_map_l. intros [[[a b] c] d] h I. cbn [fst snd].
    apply in_prod_iff in I. destruct I as [I I4]. apply in_prod_iff in I. destruct I as [I I3]. apply in_prod_iff in I. destruct I as [I1 I2].
    unfold address. split.
    - intros (sa & sb & sc & sd & A & B & C & D & ->). apply canonical_iff in A, B, C, D; auto. subst. reflexivity.
    - intros ->. exists (dec a), (dec b), (dec c), (dec d). repeat split; try (apply dec_canonical; auto). }
  unfold ipv4_item. split.
  - destruct (split 46 s) as [|f1 [|f2 [|f3 [|f4 [|]]]]] eqn:S; try discriminate.
    destruct (byte_range f1) as [l1|] eqn:B1; [|discriminate]. destruct (byte_range f2) as [l2|] eqn:B2; [|discriminate].
    destruct (byte_range f3) as [l3|] eqn:B3; [|discriminate]. destruct (byte_range f4) as [l4|] eqn:B4; [|discriminate].
    apply byte_range_iff in B1, B2, B3, B4. intro H. inversion H as [H']. rewrite <- (join_split 46 s), S. cbn [join]. apply ipv4_intro with l1 l2 l3 l4; auto.
    rewrite H'. apply K; eauto using byte_span_nonneg.
  - intro H. destruct H as [t1 t2 t3 t4 l1 l2 l3 l4 hs B1 B2 B3 B4 F].
    assert (ND : forall t l, byte_span t l -> ~ In 46 t) by (intros t l' B I; destruct (byte_span_chars _ _ _ B I) as [D|D]; unfold digit in D; lia).
    rewrite !split_app by eauto. rewrite split_none by eauto. rewrite (proj2 (byte_range_iff t1 l1) B1), (proj2 (byte_range_iff t2 l2) B2), (proj2 (byte_range_iff t3 l3) B3), (proj2 (byte_range_iff t4 l4) B4).
    f_equal. symmetry. apply K; eauto using byte_span_nonneg.
Qed.
Lemma alpha_iff : forall c, is_alpha c = true <-> letter c.
Proof. intro c. unfold is_alpha, letter. rewrite orb_true_iff, !andb_true_iff, !Z.leb_le. tauto. Qed.
Lemma span_base_spec : forall s, fst (span_base s) ++ snd (span_base s) = s /\ Forall (fun c => letter c \/ c = 45) (fst (span_base s)) /\ match snd (span_base s) with [] => True | c :: _ => ~ (letter c \/ c = 45) end.
Proof.
  induction s as [|c s (I1 & I2 & I3)]; cbn; auto. destruct (is_alpha c || (c =? 45)) eqn:E.
  - destruct (span_base s) as [a b]. cbn [fst snd] in *. split; [cbn; congruence|]. split; auto. constructor; auto. apply orb_true_iff in E. rewrite alpha_iff, Z.eqb_eq in E. auto.
  - cbn. repeat split; auto. apply orb_false_iff in E. destruct E as [E1 E2]. intros [L|L]; [apply alpha_iff in L; congruence|subst; discriminate].
Qed.
Lemma span_base_app : forall b r, Forall (fun c => letter c \/ c = 45) b -> match r with [] => True | c :: _ => ~ (letter c \/ c = 45) end -> span_base (b ++ r) = (b, r).
Proof.
  induction b as [|c b IH]; intros r B R; cbn [app span_base].
  - destruct r as [|c r]; auto. cbn. destruct (is_alpha c || (c =? 45)) eqn:E; auto. exfalso. apply R. apply orb_true_iff in E. rewrite alpha_iff, Z.eqb_eq in E. auto.
  - inversion B; subst. assert (E : is_alpha c || (c =? 45) = true) by (apply orb_true_iff; rewrite alpha_iff, Z.eqb_eq; auto). rewrite E, IH; auto.
Qed.
Lemma digit_not_base : forall c, digit c -> ~ (letter c \/ c = 45).
Proof. intros c D. unfold digit, letter in *. lia. Qed.
Lemma host_range_iff : forall s l, host_range_item s = Some l <-> host_range_text s l.
Proof.
  intros s l.
  assert (K : forall base a b hs, a <> [] -> b <> [] -> Forall digit a -> Forall digit b ->
     (Forall2 (fun i h => exists t, canonical i t /\ h = base ++ t) (py_range (num a) (num b)) hs <-> hs = map (fun i => base ++ dec i) (py_range (num a) (num b)))).
  { intros base a b hs NA NB DA DB. apply Forall2_map_l. intros i h I. apply py_range_in in I. rewrite num_number in I by auto. pose proof (number_bound a DA). split.
    - intros (t & C & ->). apply canonical_iff in C; [|lia]. subst. auto.
    - intros ->. exists (dec i). split; auto. apply dec_canonical. lia. }
  unfold host_range_item. split.
  - destruct (span_base_spec s) as (E & B & N). destruct (span_base s) as [base r]. cbn [fst snd] in *. destruct (split1 126 r) as [[a b]|] eqn:S; [|discriminate].
    apply split1_some in S. destruct S as [-> NA]. destruct a as [|a0 a]; [discriminate|]. destruct b as [|b0 b]; [discriminate|].
    destruct (forallb is_digit (a0 :: a) && forallb is_digit (b0 :: b)) eqn:D; [|discriminate]. apply andb_true_iff in D. rewrite !digits_iff in D. destruct D as [DA DB].
    intro H. inversion H as [H']. rewrite <- E. apply host_range_intro with (py_range (num (a0 :: a)) (num (b0 :: b))); auto; try discriminate.
    + rewrite <- !num_number by (auto; discriminate). apply interval_iff. auto.
    + apply K; auto; discriminate.
  - intro H. destruct H as [base a b l hs B NA NB DA DB I F].
    rewrite span_base_app; auto; [|destruct a as [|a0 a]; [congruence|]; cbn; inversion DA; subst; apply digit_not_base; auto].
    rewrite split1_found by (intro X; rewrite Forall_forall in DA; apply DA in X; unfold digit in X; lia).
    destruct a as [|a0 a]; [congruence|]. destruct b as [|b0 b]; [congruence|]. rewrite (proj2 (digits_iff _) DA), (proj2 (digits_iff _) DB). cbn [andb].
    apply interval_iff in I. rewrite <- !num_number in I by (auto; discriminate). subst l. f_equal. symmetry. apply (K base (a0 :: a) (b0 :: b) hs); auto; discriminate.
Qed.
Lemma host_iff : forall s l, host_item s = Some l <-> Forall host_char s /\ l = [s].
Proof.
  intros s l. unfold host_item. assert (E : forallb (fun c => is_alpha c || is_digit c || (c =? 45)) s = true <-> Forall host_char s).
  { rewrite forallb_forall, Forall_forall. unfold host_char. split; intros H c I; specialize (H c I).
    - rewrite !orb_true_iff, alpha_iff, is_digit_iff, Z.eqb_eq in H. tauto.
    - rewrite !orb_true_iff, alpha_iff, is_digit_iff, Z.eqb_eq. tauto. }
  destruct (forallb _ s).
  - split; [intro H; inversion H; split; [apply E; auto|auto]|]. intros [_ ->]. auto.
  - split; [discriminate|]. intros [H _]. apply E in H. discriminate.
Qed.
Lemma ipv4_has_dot : forall s l, ipv4_text s l -> In 46 s.
Proof. intros s l H. destruct H. apply in_or_app. right. left. auto. Qed.
Lemma hrange_no_dot : forall s l, host_range_text s l -> ~ In 46 s /\ In 126 s.
Proof.
  intros s l H. destruct H as [base a b l hs B NA NB DA DB I F]. rewrite Forall_forall in B, DA, DB. split.
  - intro X. apply in_app_or in X. destruct X as [X|X]; [apply B in X; unfold letter in X; lia|]. apply in_app_or in X. destruct X as [X|[X|X]]; [apply DA in X; unfold digit in X; lia|lia|apply DB in X; unfold digit in X; lia].
  - apply in_or_app. right. apply in_or_app. right. left. auto.
Qed.
Lemma hostname_iff : forall s l, hostname_item s = Some l <-> ipv4_text s l \/ host_range_text s l \/ (Forall host_char s /\ l = [s]).
Proof.
  intros s l. unfold hostname_item. split.
  - destruct (ipv4_item s) as [m|] eqn:I; [intro H; inversion H; subst; left; apply ipv4_iff; auto|].
    destruct (host_range_item s) as [m|] eqn:R; [intro H; inversion H; subst; right; left; apply host_range_iff; auto|]. intro H. right. right. apply host_iff. auto.
  - intros [H|[H|H]].
    + apply ipv4_iff in H. rewrite H. auto.
    + destruct (ipv4_item s) as [m|] eqn:I; [apply ipv4_iff in I; apply ipv4_has_dot in I; apply hrange_no_dot in H; tauto|]. apply host_range_iff in H. rewrite H. auto.
    + destruct H as [H ->]. rewrite Forall_forall in H.
      destruct (ipv4_item s) as [m|] eqn:I; [apply ipv4_iff in I; apply ipv4_has_dot in I; apply H in I; unfold host_char, letter, digit in I; lia|].
      destruct (host_range_item s) as [m|] eqn:R; [apply host_range_iff in R; apply hrange_no_dot in R; destruct R as [_ R]; apply H in R; unfold host_char, letter, digit in R; lia|].
      apply host_iff. rewrite Forall_forall. auto.
Qed.
Lemma ends_iff : forall s, no_spaces_at_ends s <-> trimmed s.
Proof.
  intro s. unfold no_spaces_at_ends, trimmed. split.
  - intros [A B]. split; [destruct s; cbn; eauto|]. destruct (rev s) as [|c r] eqn:E; cbn; auto. apply (B c (rev r)). rewrite <- (rev_involutive s), E. reflexivity.
  - intros [A B]. split; [intros c r ->; auto|]. intros c r ->. rewrite rev_app_distr in B. auto.
Qed.
Lemma host_field_iff : forall s v, (match strip s with [] => Some [] | i => hostname_item i end) = Some v <-> host_field s v.
Proof.
  intros s v. destruct (strip_parts s) as (p & q & P & Q & E). destruct (strip s) as [|c r] eqn:S.
  - split; [intro H; inversion H; constructor; apply strip_blank; auto|]. intro H. destruct H as [t T|p' t q' l P' Q' N TR H]; auto. exfalso. apply ends_iff in TR. rewrite strip_pad in S by auto. rewrite strip_id in S by auto. congruence.
  - split.
    + intro H. rewrite E. rewrite <- S in *. apply hf_host; auto; [congruence|apply ends_iff, strip_trimmed|apply hostname_iff; auto].
    + intro H. destruct H as [t T|p' t q' l P' Q' N TR H]; [apply strip_blank in T; congruence|]. apply ends_iff in TR. rewrite strip_pad in S by auto. rewrite strip_id in S by auto. rewrite <- S. apply hostname_iff. auto.
Qed.
