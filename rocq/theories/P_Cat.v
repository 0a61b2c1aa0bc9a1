(** Proofs about source catalogs: dictionaries, the catalog of a list of sources, text fields. *)
From Coq Require Import List ZArith Lia Bool.
From Verif Require Import M_Cat S_Cat P_Str.
Import ListNotations.
Open Scope Z_scope.

Lemma key_eqb_spec : forall a b, reflect (a = b) (key_eqb a b).
Proof.
  intros [a|] [b|]; cbn; try (constructor; congruence). destruct (str_eqb_spec a b) as [->|N]; constructor; congruence.
Qed.
Definition key_dec (a b : key) : {a = b} + {a <> b}.
Proof. destruct (key_eqb_spec a b); auto. Defined.
Lemma kget_put : forall {A} n m (a : A) d, kget m (kput n a d) = if key_eqb n m then Some a else kget m d.
Proof.
  intros A n m a d. induction d as [|[k b] d IH]; cbn [kput kget]; [reflexivity|].
  destruct (key_eqb_spec k n) as [->|N]; cbn [kget].
  - destruct (key_eqb n m); reflexivity.
  - rewrite IH. destruct (key_eqb_spec k m) as [->|]; [|reflexivity]. destruct (key_eqb_spec n m) as [->|]; [contradiction|reflexivity].
Qed.
Lemma kget_in : forall {A} n (d : list (key * A)), kget n d <> None <-> In n (map fst d).
Proof.
  intros A n d. induction d as [|[m a] d IH]; cbn [kget map fst In]; [split; [congruence|intros []]|].
  destruct (key_eqb_spec m n) as [->|N]; [split; [auto|intros _; discriminate]|]. rewrite IH. split; [auto|intros [E|H]; [congruence|exact H]].
Qed.
Lemma kput_keys : forall {A} n m (a : A) d, In m (map fst (kput n a d)) <-> m = n \/ In m (map fst d).
Proof.
  intros A n m a d. rewrite <- !kget_in, kget_put. destruct (key_eqb_spec n m) as [->|N]; split; intro H; auto; try discriminate.
  destruct H; [congruence|auto].
Qed.
Lemma kput_nodup : forall {A} n (a : A) d, NoDup (map fst d) -> NoDup (map fst (kput n a d)).
Proof.
  intros A n a d. induction d as [|[m b] d IH]; cbn [kput map fst]; intro H; [constructor; [intros []|constructor]|].
  inversion H as [|x l Hn Hd]; subst. destruct (key_eqb_spec m n) as [->|N]; cbn [map fst]; [exact H|].
  constructor; [|auto]. rewrite kput_keys. intros [->|I]; [congruence|auto].
Qed.
Lemma kget_aliases : forall F (e : entry F) k as_ m, kget k (fold_left (fun m a => kput a e m) as_ m) = if in_dec key_dec k as_ then Some e else kget k m.
Proof.
  intros F e k as_. induction as_ as [|a as_ IH]; intro m; cbn [fold_left]; [reflexivity|]. rewrite IH, kget_put.
  destruct (in_dec key_dec k as_) as [I|N]; destruct (in_dec key_dec k (a :: as_)) as [I'|N']; try reflexivity.
  - destruct N'. right. exact I.
  - destruct I' as [->|I']; [|contradiction]. destruct (key_eqb_spec k k); [reflexivity|congruence].
  - destruct (key_eqb_spec a k) as [->|]; [|reflexivity]. destruct N'. left. reflexivity.
Qed.

(** The last source with a property. *)
Lemma last_new : forall F (P : source F -> Prop) l s, P s -> last_with P (l ++ [s]) (Some s).
Proof. intros. apply lw_some; [assumption|constructor]. Qed.
Lemma last_old : forall F (P : source F -> Prop) l s o, ~ P s -> last_with P l o -> last_with P (l ++ [s]) o.
Proof.
  intros F P l s o N H. destruct H as [l H|a t b H1 H2].
  - constructor. apply Forall_app. auto.
  - rewrite <- app_assoc. cbn [app]. constructor; [assumption|]. apply Forall_app. auto.
Qed.

Definition build {F} (l : list (source F)) (c : catalog F) : catalog F := fold_left (fun c s => add_entry c (src_entry s)) l c.
Lemma src_name : forall F (s : source F), e_name (src_entry s) = s_name s.
Proof. intros F [n a [[[h m] x] [[[g d] dm] dx]]]. reflexivity. Qed.
Lemma src_alias : forall F (s : source F), e_alias (src_entry s) = map Some (s_also s).
Proof. intros F [n a [[[h m] x] [[[g d] dm] dx]]]. reflexivity. Qed.
Lemma build_snoc : forall F (l : list (source F)) s c, build (l ++ [s]) c = add_entry (build l c) (src_entry s).
Proof. intros. unfold build. rewrite fold_left_app. reflexivity. Qed.
Lemma build_names : forall F (l : list (source F)) k, exists o, last_with (fun s => s_name s = k) l o /\ kget k (source_map (build l new_catalog)) = option_map src_entry o.
Proof.
  intros F l k. induction l as [|s l (o & L & G)] using rev_ind.
  - exists None. split; [constructor; constructor|reflexivity].
  - rewrite build_snoc. cbn [add_entry source_map]. rewrite kget_put, src_name. destruct (key_eqb_spec (s_name s) k) as [E|N].
    + exists (Some s). split; [apply last_new; exact E|reflexivity].
    + exists o. split; [apply last_old; assumption|exact G].
Qed.
Lemma build_aliases : forall F (l : list (source F)) k, exists o, last_with (fun s => In k (map Some (s_also s))) l o /\ kget k (alias_map (build l new_catalog)) = option_map src_entry o.
Proof.
  intros F l k. induction l as [|s l (o & L & G)] using rev_ind.
  - exists None. split; [constructor; constructor|reflexivity].
  - rewrite build_snoc. cbn [add_entry alias_map]. rewrite kget_aliases, src_alias. destruct (in_dec key_dec k (map Some (s_also s))) as [I|N].
    + exists (Some s). split; [apply last_new; exact I|reflexivity].
    + exists o. split; [apply last_old; assumption|exact G].
Qed.
Lemma build_iterate : forall F (l : list (source F)), NoDup (iterate (build l new_catalog)) /\ forall k, In k (iterate (build l new_catalog)) <-> exists s, In s l /\ s_name s = k.
Proof.
  intros F l. induction l as [|s l (N & K)] using rev_ind.
  - split; [constructor|]. intro k. cbn. split; [intros []|intros (s & [] & _)].
  - rewrite build_snoc. unfold iterate in *. cbn [add_entry source_map]. split; [apply kput_nodup; exact N|].
    intro k. rewrite kput_keys, K, src_name. split.
    + intros [->|(t & I & E)]; [exists s; split; [apply in_or_app; right; left; reflexivity|reflexivity]|exists t; split; [apply in_or_app; auto|exact E]].
    + intros (t & I & E). apply in_app_or in I. destruct I as [I|[->|[]]]; [right; eauto|left; auto].
Qed.
Lemma build_holds : forall F (l : list (source F)), holds (build l new_catalog) l.
Proof.
  intros F l. destruct (build_iterate F l) as (N & K). split; [|split; assumption]. intro k.
  destruct (build_names F l k) as (p & Lp & Gp). destruct (build_aliases F l k) as (q & Lq & Gq). destruct p as [s|].
  - exists (Some s). split; [exists (Some s); auto|]. unfold lookup. rewrite Gp. reflexivity.
  - exists q. split; [exists None; auto|]. unfold lookup. rewrite Gp. cbn [option_map]. exact Gq.
Qed.

(** Every catalog made by adding entries is consistent. *)
Definition added {F} (l : list (entry F)) (c : catalog F) : catalog F := fold_left add_entry l c.
Definition tidy {F} (c : catalog F) : Prop :=
  NoDup (iterate c) /\ (forall k e, kget k (source_map c) = Some e -> e_name e = k) /\
  (forall k e, kget k (alias_map c) = Some e -> In k (e_alias e) /\ In (e_name e) (iterate c)).
Lemma tidy_new : forall F, tidy (F := F) new_catalog.
Proof. intro F. split; [constructor|]. split; cbn; discriminate. Qed.
Lemma tidy_add : forall F (c : catalog F) e, tidy c -> tidy (add_entry c e).
Proof.
  intros F c e (N & A & B). unfold tidy, iterate in *. cbn [add_entry source_map alias_map]. split; [apply kput_nodup; exact N|]. split; intros k f G.
  - rewrite kget_put in G. destruct (key_eqb_spec (e_name e) k) as [E|]; [congruence|auto].
  - rewrite kget_aliases in G. rewrite kput_keys. destruct (in_dec key_dec k (e_alias e)) as [I|].
    + injection G as <-. auto.
    + destruct (B k f G). auto.
Qed.
Lemma tidy_lwa : forall F ls (c c' : catalog F), tidy c -> lwa_parse F ls c = Ok c' -> tidy c'.
Proof.
  intros F ls. induction ls as [|l ls IH]; intros c c' T; cbn [lwa_parse]; [intro H; injection H as <-; exact T|].
  destruct (lwa_line F l) as [[e|]|x]; cbn [bind]; intro H; [apply (IH (add_entry c e)); [apply tidy_add; exact T|exact H]|apply (IH c); assumption|discriminate].
Qed.
Lemma psr_line_cat : forall F l (s s' : psrst F), psr_line l s = Ok s' -> p_cat s' = p_cat s \/ exists e, p_cat s' = add_entry (p_cat s) e.
Proof.
  intros F l s s'. unfold psr_line.
  destruct (starts_with kw_psrb l); [|destruct (starts_with kw_psrj l); [|destruct (starts_with kw_raj l); [|destruct (starts_with kw_decj l); [|destruct (starts_with kw_end l)]]]].
  - destruct (word1 l); cbn [bind]; [|discriminate]. intro H; injection H as <-. auto.
  - destruct (word1 l); cbn [bind]; [|discriminate]. intro H; injection H as <-. auto.
  - unfold psr_raj. destruct (word1 l); cbn [bind]; [|discriminate].
    match goal with |- bind ?r _ = _ -> _ => destruct r as [[[[h m] x] b]|y]; cbn [bind]; [|discriminate] end.
    destruct (mk_hms h m x); intro H; injection H as <-; auto.
  - unfold psr_decj. destruct (word1 l); cbn [bind]; [|discriminate].
    assert (D : forall r : res (bool * Z * Z * flt F),
      bind r (fun v => let '(n, d, m, x) := v in
        match mk_dms n d m x with
        | Ok dec => Ok (mkPS (p_b s) (p_j s) (p_ra s) (Some dec) (p_bad s) (p_last s) (p_cat s))
        | Raise _ => Ok (mkPS (p_b s) (p_j s) (p_ra s) (p_dec s) true (p_last s) (p_cat s))
        end) = Ok s' -> p_cat s' = p_cat s).
    { intros [[[[n d] m] x]|y]; cbn [bind]; [|discriminate]. destruct (mk_dms n d m x); intro H; injection H as <-; reflexivity. }
    cbv zeta. destruct (split 58 a) as [|x1 [|x2 [|x3 [|x4 r]]]]; intro H; left; try (injection H as <-; reflexivity); eapply D; exact H.
  - unfold psr_end. destruct (match p_b s with Some b => (Some b, p_j s) | None => (p_j s, None) end) as [n al].
    destruct (p_ra s) as [ra|]; [destruct (p_dec s) as [dec|]|]; cbn [bind]; try (intro H; injection H as <-; auto).
    destruct (p_bad s); cbn [bind]; [intro H; injection H as <-; auto|]. destruct (equ_posn ra dec); cbn [bind]; [|discriminate].
    intro H; injection H as <-. right. eexists. reflexivity.
  - intro H; injection H as <-. auto.
Qed.
Lemma tidy_psr : forall F ls (s s' : psrst F), tidy (p_cat s) -> psr_lines ls s = Ok s' -> tidy (p_cat s').
Proof.
  intros F ls. induction ls as [|l ls IH]; intros s s' T; cbn [psr_lines]; [intro H; injection H as <-; exact T|].
  destruct (psr_line l s) as [t|x] eqn:E; cbn [bind]; [|discriminate]. intro H. apply (IH t); [|exact H].
  destruct (psr_line_cat F l s t E) as [->|(e & ->)]; [exact T|apply tidy_add; exact T].
Qed.

(** Texts. *)
Lemma words_skip : forall g s, all_space g -> words (g ++ s) = words s.
Proof. intros g s H. induction H as [|c g Hc _ IH]; [reflexivity|]. cbn [app]. unfold words in *. cbn [words_from]. rewrite Hc. exact IH. Qed.
Lemma words_from_run : forall v cur s, no_space v -> words_from cur (v ++ s) = words_from (rev v ++ cur) s.
Proof.
  intros v. induction v as [|c v IH]; intros cur s H; [reflexivity|]. inversion H as [|x l Hc Hv]; subst. cbn [app words_from]. rewrite Hc, IH by exact Hv.
  cbn [rev]. rewrite <- app_assoc. reflexivity.
Qed.
Lemma words_word : forall v c s, no_space v -> v <> [] -> is_space c = true -> words (v ++ c :: s) = v :: words s.
Proof.
  intros v c s H N C. unfold words. rewrite words_from_run by exact H. rewrite app_nil_r. cbn [words_from]. rewrite C.
  destruct (rev v) as [|x r] eqn:E; [apply (f_equal (@rev Z)) in E; rewrite rev_involutive in E; cbn in E; congruence|]. rewrite <- E, rev_involutive. reflexivity.
Qed.
Lemma words_last : forall v, no_space v -> v <> [] -> words v = [v].
Proof.
  intros v H N. unfold words. rewrite <- (app_nil_r v) at 1. rewrite words_from_run by exact H. rewrite app_nil_r. cbn [words_from].
  destruct (rev v) as [|x r] eqn:E; [apply (f_equal (@rev Z)) in E; rewrite rev_involutive in E; cbn in E; congruence|]. rewrite <- E, rev_involutive. reflexivity.
Qed.
Lemma words_space : forall g, all_space g -> words g = [].
Proof. intros g H. rewrite <- (app_nil_r g). rewrite words_skip by exact H. reflexivity. Qed.
Lemma words_list : forall l g, Forall (fun a => a <> [] /\ no_space a) l -> all_space g -> words (flat_map (fun a => a ++ [32]) l ++ g) = l.
Proof.
  intros l g H G. induction H as [|a l (N & S) _ IH]; cbn [flat_map]; [apply words_space; exact G|].
  rewrite <- !app_assoc. cbn [app]. rewrite words_word; auto. f_equal. exact IH.
Qed.
Lemma no_space_trimmed : forall s, no_space s -> trimmed s.
Proof.
  intros s H. split; [destruct H; cbn; auto|]. assert (R : no_space (rev s)) by (apply Forall_rev; exact H). destruct R; cbn; auto.
Qed.
Lemma rstrip_spaces : forall s g, no_space s -> all_space g -> rstrip (s ++ g) = s.
Proof.
  intros s g S G. unfold rstrip. rewrite rev_app_distr, lstrip_spaces by (apply Forall_rev; exact G).
  rewrite lstrip_id by apply (no_space_trimmed s S). apply rev_involutive.
Qed.

Lemma dt_spec : forall t n, digit_text t n -> t <> [] /\ Forall (fun c => is_digit c = true) t /\ dval t = n.
Proof.
  intros t n H. induction H as [d Hd|t n d H (N & D & V) Hd].
  - split; [discriminate|]. split; [constructor; [unfold is_digit; rewrite andb_true_iff, !Z.leb_le; lia|constructor]|]. unfold dval. cbn [fold_left]. lia.
  - split; [destruct t; discriminate|]. split; [apply Forall_app; split; [exact D|constructor; [unfold is_digit; rewrite andb_true_iff, !Z.leb_le; lia|constructor]]|].
    unfold dval in *. rewrite fold_left_app, V. cbn [fold_left]. lia.
Qed.
Lemma dt_parse : forall t n, digit_text t n -> parse_int t = Some n.
Proof.
  intros t n H. destruct (dt_spec t n H) as (N & D & V). unfold parse_int. rewrite strip_id by (apply digits_trimmed; exact D).
  destruct t as [|c t]; [congruence|]. assert (Dc := Forall_inv D). cbv beta in Dc. unfold is_digit in Dc. rewrite andb_true_iff, !Z.leb_le in Dc.
  destruct (Z.eqb_spec c 45); [lia|]. destruct (Z.eqb_spec c 43); [lia|]. rewrite parse_digits_dval by (auto; left; discriminate). unfold dval in V. rewrite V. reflexivity.
Qed.
Lemma dt_plus : forall t n, digit_text t n -> parse_int (43 :: t) = Some n.
Proof.
  intros t n H. destruct (dt_spec t n H) as (N & D & V). unfold parse_int. rewrite strip_id.
  - cbn [Z.eqb]. change (43 =? 45) with false. change (43 =? 43) with true. cbv iota. rewrite parse_digits_dval by (auto; left; exact N). unfold dval in V. rewrite V. reflexivity.
  - split; [reflexivity|]. cbn [rev]. assert (R := Forall_rev D). destruct (rev t) as [|x r] eqn:E; [apply (f_equal (@rev Z)) in E; rewrite rev_involutive in E; cbn in E; congruence|].
    cbn [app edge_ok]. apply digit_not_space. exact (Forall_inv R).
Qed.
Lemma two_text : forall n, 0 <= n <= 99 -> digit_text (two n) n.
Proof.
  intros n H. unfold two. replace n with (10 * (n / 10) + n mod 10) at 3 by (rewrite <- Z.div_mod; lia).
  apply (dt_more [48 + n / 10] (n / 10) (n mod 10)); [apply dt_one|].
  - split; [apply Z.div_pos; lia|]. assert (n / 10 < 10) by (apply Z.div_lt_upper_bound; lia). lia.
  - assert (0 <= n mod 10 < 10) by (apply Z.mod_pos_bound; lia). lia.
Qed.
Lemma two_parse : forall n, 0 <= n <= 99 -> parse_int (two n) = Some n.
Proof. intros. apply dt_parse, two_text. assumption. Qed.
Lemma dt_no : forall t n c, digit_text t n -> is_digit c = false -> ~ In c t.
Proof. intros t n c H C I. destruct (dt_spec t n H) as (_ & D & _). rewrite Forall_forall in D. rewrite (D c I) in C. discriminate. Qed.
