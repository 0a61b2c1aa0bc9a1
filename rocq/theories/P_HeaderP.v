(** Proofs about text file headers: parse_header on what was written. *)
From Coq Require Import List ZArith Bool Lia.
From Verif Require Import LibList M_Py M_Str P_Str M_Header S_Header P_Header.
Import ListNotations.
Open Scope Z_scope.

Lemma text_indent i s : 0 <= i -> is_space (hd 0 s) = false -> s <> [] -> zlen (spaces i ++ s) - zlen (lstrip (spaces i ++ s)) = i.
Proof. intros I H N. rewrite lstrip_spaces by apply spaces_all. rewrite lstrip_id by (apply edge_hd; exact H). rewrite zlen_app, zlen_spaces by exact I. lia. Qed.
Lemma hd_app (a b : str) : a <> [] -> hd 0 (a ++ b) = hd 0 a.
Proof. destruct a; [contradiction|reflexivity]. Qed.

Section Texts.
Context {J : Type} (loads : str -> option J) (dumps : J -> str) (c : Z) (Hc : good_comment c).
Lemma last_app_ne (a b : str) : b <> [] -> last (a ++ b) 0 = last b 0.
Proof. intro N. destruct (exists_last N) as [x [y ->]]. rewrite app_assoc, !last_last. reflexivity. Qed.
Lemma value_text k v : good_name c k -> good_value dumps loads c v -> no_blank_ends (k ++ [58; 32] ++ dumps v) /\ one_line (k ++ [58; 32] ++ dumps v) /\ ~ In c (k ++ [58; 32] ++ dumps v).
Proof.
  intros ((N & A & Z) & O & Co & Cc & D) (Ld & (VN & VA & VZ) & VO & VC). split; [split; [|split]|split].
  - intro X. apply app_eq_nil in X. destruct X; contradiction.
  - rewrite hd_app by exact N. exact A.
  - rewrite !last_app_ne; [exact VZ|exact VN|discriminate].
  - intros x X. apply in_app_or in X. destruct X as [X|[X|[X|X]]]; [apply O; exact X|lia|lia|apply VO; exact X].
  - intro X. apply in_app_or in X. destruct X as [X|[X|[X|X]]]; [contradiction| | |contradiction]; destruct Hc as [H1 H2]; [congruence|rewrite <- X in H1; discriminate].
Qed.
End Texts.
Lemma group_text c k : good_comment c -> good_name c k -> with_colon k = k ++ [58] /\ no_blank_ends (k ++ [58]) /\ one_line (k ++ [58]) /\ ~ In c (k ++ [58]).
Proof.
  intros Hc ((N & A & Z) & O & Co & Cc & D). split; [|split; [split; [|split]|split]].
  - unfold with_colon. destruct (Z.eqb_spec (last k 0) 58) as [E|E]; [|reflexivity]. exfalso. apply Co. destruct (exists_last N) as [a [x Q]]. rewrite Q in *. rewrite last_last in E. subst. apply in_or_app. right. left. reflexivity.
  - intro X. apply app_eq_nil in X. destruct X; contradiction.
  - rewrite hd_app by exact N. exact A.
  - rewrite last_last. reflexivity.
  - intros x X. apply in_app_or in X. destruct X as [X|[X|X]]; [apply O; exact X|lia|destruct X].
  - intro X. apply in_app_or in X. destruct X as [X|[X|X]]; [contradiction| |destruct X]. destruct Hc as [H1 H2]. congruence.
Qed.

Section Parse.
Context {J : Type} (loads : str -> option J) (of_text : str -> J) (as_text : J -> option str) (plus : J -> str -> option J) (dumps : J -> str).
Context (c B : Z) (Hc : good_comment c) (HB : 1 <= B).
Notation dict := (list (str * node J)).
Notation st := (@state J).
Notation step := (step loads of_text as_text plus c).
Notation steps := (steps loads of_text as_text plus c).

(** A line read without looking at the next one *)
Definition step0 (s : st) (l : str) : res st := step s l None.
Fixpoint steps0 (s : st) (ls : list str) : res st := match ls with [] => Ok s | l :: ls => bind (step0 s l) (fun s => steps0 s ls) end.
Lemma steps0_app a b : forall s, steps0 s (a ++ b) = bind (steps0 s a) (fun s => steps0 s b).
Proof. induction a as [|l a IH]; intro s; [reflexivity|]. cbn. destruct (step0 s l); cbn; [apply IH|reflexivity]. Qed.

(** The key and value of a line *)
Definition parts (line : str) : str * str := match split1 58 line with Some (a, b) => (strip a, strip b) | None => ([], strip line) end.
Lemma skip s l next : clean c l = [] -> step s l next = Ok s.
Proof.
  unfold clean, M_Header.step. destruct (starts_with [c] l); cbn [negb]; [|reflexivity]. intros ->. reflexivity.
Qed.
(** The action of a line with key and value *)
Definition act (s : st) (indent : Z) (k : str) (o : option J) : res st :=
  let base := if p_curr s =? -1 then indent else p_base s in
  let path := if indent <? p_curr s then pop ((p_curr s - indent) / p_base s) (p_path s) else p_path s in
  match o with
  | Some v => bind (edit path (fun d => Ok (put d k (Val v))) (p_root s)) (fun r => Ok (mkS r path indent base))
  | None => bind (edit path (fun d => Ok (put d k (Dict []))) (p_root s)) (fun r => Ok (mkS r (path ++ [k]) indent base))
  end.
Definition safe_next (next : option str) : Prop := match next with Some n => safe c n | None => True end.
Lemma will_not i next : 1 <= i -> safe_next next -> match next with Some n => starts_with ([c] ++ spaces i ++ dots) n | None => false end = false.
Proof. intros I H. destruct next as [n|]; [apply H; exact I|reflexivity]. Qed.
Lemma strip_name i k : good_name c k -> strip (spaces i ++ k) = k.
Proof.
  intros ((N & A & Z) & _). rewrite <- (app_nil_r (spaces i ++ k)), <- app_assoc. rewrite strip_pad by (auto using spaces_all). apply strip_id. split; [apply edge_hd; exact A|apply edge_rev; assumption].
Qed.
Lemma no_colon i k : ~ In 58 k -> ~ In 58 (spaces i ++ k).
Proof. intros K H. apply in_app_or in H. destruct H as [H|H]; [unfold spaces in H; apply repeat_spec in H; discriminate|contradiction]. Qed.
Lemma line_value s l next i k v : 1 <= i -> good_name c k -> good_value dumps loads c v -> (p_curr s = -1 \/ p_base s <> 0) -> safe_next next -> starts_with [c] l = true -> clean c l = spaces i ++ k ++ [58; 32] ++ dumps v -> step s l next = act s i k (Some v).
Proof.
  intros I K V Nb S C E. pose proof (strip_name i k K) as SK. destruct K as ((N & A & Z) & O & Co & Cc & D). destruct V as (L & (VN & VA & VZ) & VO & VC).
  unfold clean in E. rewrite C in E. unfold M_Header.step. rewrite C. cbn [negb]. rewrite E.
  assert (NE : spaces i ++ k ++ [58; 32] ++ dumps v <> []) by (intro X; apply app_eq_nil in X; destruct X as [_ X]; apply app_eq_nil in X; destruct X; contradiction).
  destruct (spaces i ++ k ++ [58; 32] ++ dumps v) as [|x r] eqn:Q; [contradiction|]. rewrite <- Q. clear NE.
  rewrite text_indent; [|lia|rewrite hd_app by exact N; exact A|intro X; apply app_eq_nil in X; destruct X; contradiction].
  replace (spaces i ++ k ++ [58; 32] ++ dumps v) with ((spaces i ++ k) ++ 58 :: (32 :: dumps v)) by (rewrite <- app_assoc; reflexivity).
  rewrite split1_found by (apply no_colon; exact Co). rewrite SK.
  assert (SV : strip (32 :: dumps v) = dumps v).
  { change (32 :: dumps v) with (spaces 1 ++ dumps v). rewrite <- (app_nil_r (spaces 1 ++ dumps v)), <- app_assoc. rewrite strip_pad by (auto using spaces_all). apply strip_id. split; [apply edge_hd; exact VA|apply edge_rev; assumption]. }
  rewrite SV. rewrite (will_not i next I S). unfold loaded, act, to_value, loaded. rewrite L.
  destruct (dumps v) as [|y w]; [contradiction|]. destruct k as [|z k]; [contradiction|].
  destruct (Z.ltb_spec (p_curr s) i); [destruct (Z.ltb_spec i (p_curr s)); [lia|]; reflexivity|].
  destruct (Z.eqb_spec (p_curr s) (-1)); [lia|]. destruct Nb as [Nb|Nb]; [contradiction|]. destruct (Z.ltb_spec i (p_curr s)); [|reflexivity]. destruct (Z.eqb_spec (p_base s) 0); [contradiction|]. reflexivity.
Qed.
Lemma line_group s l next i k : 1 <= i -> good_name c k -> (p_curr s = -1 \/ p_base s <> 0) -> p_curr s <> i -> safe_next next -> starts_with [c] l = true -> clean c l = spaces i ++ k ++ [58] -> step s l next = act s i k None.
Proof.
  intros I K Nb Ne S C E. pose proof (strip_name i k K) as SK. destruct K as ((N & A & Z) & O & Co & Cc & D).
  unfold clean in E. rewrite C in E. unfold M_Header.step. rewrite C. cbn [negb]. rewrite E.
  assert (NE : spaces i ++ k ++ [58] <> []) by (intro X; apply app_eq_nil in X; destruct X as [_ X]; apply app_eq_nil in X; destruct X; contradiction).
  destruct (spaces i ++ k ++ [58]) as [|x r] eqn:Q; [contradiction|]. rewrite <- Q. clear NE.
  rewrite text_indent; [|lia|rewrite hd_app by exact N; exact A|intro X; apply app_eq_nil in X; destruct X; contradiction].
  replace (spaces i ++ k ++ [58]) with ((spaces i ++ k) ++ 58 :: []) by (rewrite <- app_assoc; reflexivity).
  rewrite split1_found by (apply no_colon; exact Co). rewrite SK. change (strip []) with (@nil BinNums.Z). cbv iota beta. unfold act, to_section.
  destruct (Z.ltb_spec (p_curr s) i); [destruct (Z.ltb_spec i (p_curr s)); [lia|]; reflexivity|].
  destruct (Z.eqb_spec (p_curr s) (-1)); [lia|]. destruct Nb as [Nb|Nb]; [contradiction|]. destruct (Z.ltb_spec i (p_curr s)); [|lia]. destruct (Z.eqb_spec (p_base s) 0); [contradiction|]. reflexivity.
Qed.

(** *** Where the parser stands when a line of depth [n] comes: the values of that level go into [d], found along [p]. *)
Definition stands (fresh : bool) (s : st) (n : nat) (p : list str) (d : dict) : Prop :=
  length p = n /\ get_at p (p_root s) = Some d /\
  ((p_curr s = -1 /\ n = 0%nat /\ p_path s = []) \/
   (p_base s = B /\ (((0 < n)%nat /\ p_curr s = B * Z.of_nat n /\ p_path s = p) \/
                     (exists q, p_path s = p ++ q /\ p_curr s = B * (Z.of_nat n + Z.of_nat (length q) + 1) /\ (fresh = true -> q <> []))))).
Lemma stands_weak s n p d f : stands f s n p d -> stands false s n p d.
Proof. intros (L & G & [H|(Hb & [H|(q & Q1 & Q2 & Q3)])]); (split; [exact L|split; [exact G|]]); [left; exact H|right; split; [exact Hb|left; exact H]|right; split; [exact Hb|right; exists q; split; [exact Q1|split; [exact Q2|discriminate]]]]. Qed.
Lemma stands_path s n p d f : stands f s n p d -> let i := B * (Z.of_nat n + 1) in
  (if i <? p_curr s then pop ((p_curr s - i) / p_base s) (p_path s) else p_path s) = p /\ (if p_curr s =? -1 then i else p_base s) = B /\ (p_curr s = -1 \/ p_base s <> 0).
Proof.
  intros (L & G & [(H1 & H2 & H3)|(Hb & [(H1 & H2 & H3)|(q & Q1 & Q2 & Q3)])]) i; subst i.
  - subst n. destruct p; [|discriminate]. rewrite H1, H3. cbn. destruct (Z.ltb_spec (B * 1) (-1)); [nia|]. split; [reflexivity|]. split; [lia|auto].
  - rewrite H2, H3, Hb. destruct (Z.ltb_spec (B * (Z.of_nat n + 1)) (B * Z.of_nat n)); [nia|]. destruct (Z.eqb_spec (B * Z.of_nat n) (-1)); [nia|]. split; [reflexivity|]. split; [reflexivity|right; lia].
  - rewrite Q2, Q1, Hb. destruct (Z.eqb_spec (B * (Z.of_nat n + Z.of_nat (length q) + 1)) (-1)); [nia|]. split; [|split; [reflexivity|right; lia]].
    destruct (Z.ltb_spec (B * (Z.of_nat n + 1)) (B * (Z.of_nat n + Z.of_nat (length q) + 1))) as [X|X].
    + replace (B * (Z.of_nat n + Z.of_nat (length q) + 1) - B * (Z.of_nat n + 1)) with (Z.of_nat (length q) * B) by ring. rewrite Z.div_mul by lia. unfold pop. rewrite Nat2Z.id, app_length, Nat.add_sub, firstn_app, firstn_all, Nat.sub_diag. cbn. apply app_nil_r.
    + assert (length q = 0%nat) by nia. destruct q; [apply app_nil_r|discriminate].
Qed.
Lemma act_value s n p d k v f : stands f s n p d -> act s (B * (Z.of_nat n + 1)) k (Some v) = Ok (mkS (set_at p (put d k (Val v)) (p_root s)) p (B * (Z.of_nat n + 1)) B).
Proof. intro H. destruct (stands_path _ _ _ _ _ H) as (P & Q & _). unfold act. rewrite P, Q. destruct H as (_ & G & _). rewrite (edit_at p (p_root s) d _ (put d k (Val v)) G eq_refl). reflexivity. Qed.
Lemma act_group s n p d k f : stands f s n p d -> act s (B * (Z.of_nat n + 1)) k None = Ok (mkS (set_at p (put d k (Dict [])) (p_root s)) (p ++ [k]) (B * (Z.of_nat n + 1)) B).
Proof. intro H. destruct (stands_path _ _ _ _ _ H) as (P & Q & _). unfold act. rewrite P, Q. destruct H as (_ & G & _). rewrite (edit_at p (p_root s) d _ (put d k (Dict [])) G eq_refl). reflexivity. Qed.
Lemma fresh_differs s n p d : stands true s n p d -> p_curr s <> B * (Z.of_nat n + 1).
Proof. intros (L & G & [(H1 & H2 & H3)|(Hb & [(H1 & H2 & H3)|(q & Q1 & Q2 & Q3)])]); [nia|nia|]. rewrite Q2. specialize (Q3 eq_refl). destruct q; [contradiction|]. cbn [length]. nia. Qed.

(** *** A whole level *)
Notation item := (@item J).
Fixpoint size (i : item) : nat := match i with Group _ b => S (list_sum (map size b)) | _ => 1 end.
Definition sizes (l : list item) : nat := list_sum (map size l).
Lemma sizes_cons i l : sizes (i :: l) = (size i + sizes l)%nat.
Proof. reflexivity. Qed.
Lemma size_group k b : size (Group k b) = S (sizes b).
Proof. reflexivity. Qed.
Lemma size_pos i : (1 <= size i)%nat.
Proof. destruct i; cbn; apply le_n_S, Nat.le_0_l. Qed.
(** the lines of an entry: given from outside *)
Context (L : entry -> str) (fits : entry -> Prop).
Context (L_text : forall e, fits e -> e_kind e = KText -> 1 <= e_indent e -> no_blank_ends (e_value e) -> one_line (e_value e) -> ~ In c (e_value e) -> starts_with [c] (L e) = true /\ clean c (L e) = spaces (e_indent e) ++ e_value e).
Context (L_deco : forall e, e_kind e = KRule \/ e_kind e = KBlank -> clean c (L e) = []).
Definition lines (n : nat) (l : list item) : list str := map L (flat_map (entries c B (B * (Z.of_nat n + 1))) (map (call_of dumps) l)).
Definition all_fit (n : nat) (l : list item) : Prop := forall e, In e (flat_map (entries c B (B * (Z.of_nat n + 1))) (map (call_of dumps) l)) -> fits e.

Lemma lines_entry n k v l : lines n (Entry k v :: l) = L (mkE KText (k ++ [58; 32] ++ dumps v) (B * (Z.of_nat n + 1))) :: lines n l.
Proof. reflexivity. Qed.
Lemma lines_group n k b l : lines n (Group k b :: l) = L (mkE KText (with_colon k) (B * (Z.of_nat n + 1))) :: lines (S n) b ++ lines n l.
Proof. unfold lines. cbn [map flat_map call_of entries]. rewrite <- map_app, <- app_comm_cons. cbn [map]. replace (B * (Z.of_nat n + 1) + B) with (B * (Z.of_nat (S n) + 1)) by lia. reflexivity. Qed.
Lemma means_names (l : list item) : map fst (meaning l) = names l.
Proof. induction l as [|i l IH]; [reflexivity|]. unfold meaning, names in *. cbn. rewrite map_app, IH. destruct i; reflexivity. Qed.
Lemma sections_tail (i : item) l : sections_first (i :: l) -> sections_first l.
Proof. intro H. inversion H; assumption. Qed.
Definition has_group (l : list item) : Prop := exists n b, In (Group n b) l.
Lemma forest : forall m l, (sizes l <= m)%nat -> readable dumps loads c l -> forall n p d s f, stands f s n p d -> (has_group l -> f = true) -> (forall k, In k (names l) -> ~ In k (map fst d)) -> all_fit n l ->
  exists s', steps0 s (lines n l) = Ok s' /\ p_root s' = set_at p (d ++ meaning l) (p_root s) /\
    (names l = [] -> s' = s) /\ (names l <> [] -> p_base s' = B /\ exists q, p_path s' = p ++ q /\ p_curr s' = B * (Z.of_nat n + Z.of_nat (length q) + 1)).
Proof.
  induction m as [m IHm] using lt_wf_ind. intros l Hm R n p d s f Sd Gf Nd Fit. destruct l as [|i l].
  - exists s. split; [reflexivity|]. split; [cbn; rewrite app_nil_r; symmetry; apply set_get; apply Sd|]. split; [reflexivity|intro X; destruct X; reflexivity].
  - inversion R as [l0 ND SF RE RG Ql]. subst l0.
    assert (Sz : (sizes l < m)%nat) by (rewrite sizes_cons in Hm; pose proof (size_pos i); lia).
    assert (R' : readable dumps loads c l).
    { constructor; [|apply sections_tail in SF; exact SF|intros k v K; apply RE; right; exact K|intros k b K; apply RG; right; exact K]. destruct i; cbn in ND; try exact ND; inversion ND; assumption. }
    assert (Fit' : all_fit n l) by (intros e E; apply Fit; cbn; apply in_or_app; right; exact E).
    destruct i as [k v|k b| |].
    + (* a value *)
      destruct (RE k v (or_introl eq_refl)) as [GK GV]. destruct (value_text loads dumps c Hc k v GK GV) as (T1 & T2 & T3).
      assert (I1 : 1 <= B * (Z.of_nat n + 1)) by nia.
      set (e := mkE KText (k ++ [58; 32] ++ dumps v) (B * (Z.of_nat n + 1))).
      destruct (L_text e (Fit e (or_introl eq_refl)) eq_refl I1 T1 T2 T3) as [C1 C2].
      set (s1 := mkS (set_at p (put d k (Val v)) (p_root s)) p (B * (Z.of_nat n + 1)) B).
      assert (E1 : step0 s (L e) = Ok s1).
      { unfold step0. rewrite (line_value s (L e) None (B * (Z.of_nat n + 1)) k v I1 GK GV (proj2 (proj2 (stands_path _ _ _ _ _ Sd))) Logic.I C1 C2). apply (act_value s n p d k v f Sd). }
      assert (Nk : ~ In k (map fst d)) by (apply Nd; left; reflexivity).
      assert (S1 : stands false s1 n p (d ++ [(k, Val v)])).
      { destruct Sd as (L1 & G1 & _). split; [exact L1|]. split; [unfold s1; cbn; rewrite put_new by exact Nk; apply (get_set p _ d _ G1)|]. right. split; [reflexivity|]. right. exists []. split; [unfold s1; cbn; rewrite app_nil_r; reflexivity|]. split; [unfold s1; cbn; f_equal; lia|discriminate]. }
      destruct (IHm (sizes l) Sz l (le_n _) R' n p (d ++ [(k, Val v)]) s1 false S1) as [s2 (A1 & A2 & A3 & A4)].
      { intros [k' [b' K]]. inversion SF as [| |i0 l1 Hi Hl|k0 v0 l1 Ng Hl]; subst; [destruct Hi; discriminate|]. exfalso. apply (Ng k' b' K). }
      { intros k' K' X. rewrite map_app in X. apply in_app_or in X. destruct X as [X|[X|X]]; [apply (Nd k'); [right; exact K'|exact X]| |destruct X]. cbn in X. subst k'. cbn in ND. inversion ND; contradiction. }
      { exact Fit'. }
      exists s2. rewrite lines_entry. fold e. cbn [steps0]. rewrite E1. cbn [bind]. split; [exact A1|]. split; [|split].
      * rewrite A2. unfold s1. cbn [p_root]. destruct Sd as (_ & G1 & _). rewrite (set_set p _ d _ _ G1). rewrite <- app_assoc. reflexivity.
      * cbn. discriminate.
      * intros _. destruct (names l) as [|x r] eqn:Q; [|apply A4; discriminate]. rewrite (A3 eq_refl). split; [reflexivity|]. exists []. unfold s1. cbn. rewrite app_nil_r. split; [reflexivity|f_equal; lia].
    + (* a section *)
      destruct (RG k b (or_introl eq_refl)) as (GK & NB & RB). destruct (group_text c k Hc GK) as (T0 & T1 & T2 & T3).
      assert (f = true) as -> by (apply Gf; exists k, b; left; reflexivity).
      assert (I1 : 1 <= B * (Z.of_nat n + 1)) by nia.
      set (e := mkE KText (with_colon k) (B * (Z.of_nat n + 1))).
      destruct (L_text e) as [C1 C2]; [apply Fit; left; reflexivity|reflexivity|exact I1|cbn; rewrite T0; exact T1|cbn; rewrite T0; exact T2|cbn; rewrite T0; exact T3|].
      cbn [e e_indent e_value] in C2. rewrite T0 in C2.
      set (s1 := mkS (set_at p (put d k (Dict [])) (p_root s)) (p ++ [k]) (B * (Z.of_nat n + 1)) B).
      assert (E1 : step0 s (L e) = Ok s1).
      { unfold step0. rewrite (line_group s (L e) None (B * (Z.of_nat n + 1)) k I1 GK (proj2 (proj2 (stands_path _ _ _ _ _ Sd))) (fresh_differs s n p d Sd) Logic.I C1 C2). apply (act_group s n p d k true Sd). }
      assert (Nk : ~ In k (map fst d)) by (apply Nd; left; reflexivity).
      pose proof Sd as (L1 & G1 & _).
      assert (G2 : get_at p (p_root s1) = Some (put d k (Dict []))) by (apply (get_set p _ d _ G1)).
      assert (S1 : stands true s1 (S n) (p ++ [k]) []).
      { split; [rewrite app_length; cbn; lia|]. split; [apply (get_deeper p _ _ k [] G2); apply get_put|]. right. split; [reflexivity|]. left. split; [lia|]. split; [unfold s1; cbn; f_equal; lia|reflexivity]. }
      assert (Szb : (sizes b < m)%nat) by (rewrite sizes_cons, size_group in Hm; lia).
      destruct (IHm (sizes b) Szb b (le_n _) RB (S n) (p ++ [k]) [] s1 true S1) as [s2 (A1 & A2 & A3 & A4)].
      { reflexivity. }
      { intros k' _ X. destruct X. }
      { intros x X. apply Fit. cbn [map flat_map call_of entries]. apply in_or_app. left. right. replace (B * (Z.of_nat n + 1) + B) with (B * (Z.of_nat (S n) + 1)) by lia. exact X. }
      destruct (A4 NB) as (A5 & q & A6 & A7). cbn [app] in A2.
      assert (A8 : p_root s2 = set_at p (d ++ [(k, Dict (meaning b))]) (p_root s)).
      { rewrite A2, (set_deeper p _ _ k [] _ G2 (get_put _ _ _)), put_put. unfold s1. cbn [p_root]. rewrite (set_set p _ d _ _ G1), put_new by exact Nk. reflexivity. }
      assert (S2 : stands true s2 n p (d ++ [(k, Dict (meaning b))])).
      { split; [exact L1|]. split; [rewrite A8; apply (get_set p _ d _ G1)|]. right. split; [exact A5|]. right. exists (k :: q). split; [rewrite A6, <- app_assoc; reflexivity|]. split; [rewrite A7; cbn [length]; f_equal; lia|discriminate]. }
      destruct (IHm (sizes l) Sz l (le_n _) R' n p (d ++ [(k, Dict (meaning b))]) s2 true S2) as [s3 (D1 & D2 & D3 & D4)].
      { reflexivity. }
      { intros k' K' X. rewrite map_app in X. apply in_app_or in X. destruct X as [X|[X|X]]; [apply (Nd k'); [right; exact K'|exact X]| |destruct X]. cbn in X. subst k'. cbn in ND. inversion ND; contradiction. }
      { exact Fit'. }
      exists s3. rewrite lines_group. fold e. cbn [steps0]. rewrite E1. cbn [bind]. rewrite steps0_app, A1. cbn [bind]. split; [exact D1|]. split; [|split].
      * rewrite D2, A8, (set_set p _ d _ _ G1). rewrite <- app_assoc. reflexivity.
      * cbn. discriminate.
      * intros _. destruct (names l) as [|x r] eqn:Q; [|apply D4; discriminate]. rewrite (D3 eq_refl). split; [exact A5|]. exists (k :: q). split; [rewrite A6, <- app_assoc; reflexivity|rewrite A7; cbn [length]; f_equal; lia].
    + (* a rule *)
      destruct (IHm (sizes l) Sz l (le_n _) R' n p d s f Sd) as [s2 (A1 & A2 & A3 & A4)].
      { intros [k' [b' K]]. apply Gf. exists k', b'. right. exact K. } { exact Nd. } { exact Fit'. }
      exists s2. unfold lines in *. cbn [map flat_map call_of entries app steps0]. unfold step0 at 1. rewrite skip by (apply L_deco; left; reflexivity). cbn [bind]. auto.
    + (* a blank line *)
      destruct (IHm (sizes l) Sz l (le_n _) R' n p d s f Sd) as [s2 (A1 & A2 & A3 & A4)].
      { intros [k' [b' K]]. apply Gf. exists k', b'. right. exact K. } { exact Nd. } { exact Fit'. }
      exists s2. unfold lines in *. cbn [map flat_map call_of entries app steps0]. unfold step0 at 1. rewrite skip by (apply L_deco; right; reflexivity). cbn [bind]. auto.
Qed.
End Parse.
