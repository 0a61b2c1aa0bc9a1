(** Lemmas about the text of a configuration file. *)
From Coq Require Import List ZArith Bool Lia QArith.
From Verif Require Import M_Str M_Config S_Config P_Str P_Config.
Import ListNotations.
Open Scope Z_scope.

Definition unl (ls : list str) : str := flat_map (fun l => l ++ [10]) ls.
Lemma unl_app : forall a b, unl (a ++ b) = unl a ++ unl b.
Proof. intros. unfold unl. apply flat_map_app. Qed.
Lemma split_unl : forall ls, Forall (fun l => ~ In 10 l) ls -> split 10 (unl ls) = ls ++ [[]].
Proof.
  induction 1 as [|l ls N F IH]; [reflexivity|]. cbn [unl flat_map]. rewrite <- app_assoc. cbn [app]. rewrite split_app by auto. fold (unl ls). rewrite IH. auto.
Qed.
Lemma newlines_id : forall s, ~ In 13 s -> newlines s = s.
Proof.
  induction s as [|c s IH]; intro N; [auto|]. cbn. destruct (Z.eqb_spec c 13); [exfalso; apply N; left; auto|]. fold (newlines s). rewrite IH; auto. intro; apply N; right; auto.
Qed.
Lemma join_unl : forall ls, ls <> [] -> join 10 ls ++ [10] = unl ls.
Proof.
  induction ls as [|l ls IH]; [congruence|]. intros _. destruct ls as [|k ls]; [cbn; rewrite app_nil_r; auto|].
  change (join 10 (l :: k :: ls)) with (l ++ 10 :: join 10 (k :: ls)). rewrite <- app_assoc. cbn [app]. rewrite IH by discriminate. cbn [unl flat_map]. rewrite <- !app_assoc. auto.
Qed.
Lemma one_line_trimmed : forall s, one_line s -> trimmed s.
Proof.
  intros s (_ & _ & A & B). split; [destruct s; cbn; eauto|]. destruct (rev s) as [|c r] eqn:E; cbn; auto. apply (B c (rev r)). rewrite <- (rev_involutive s), E. reflexivity.
Qed.
Lemma trimmed_one_line : forall s, trimmed s -> ~ In 10 s -> ~ In 13 s -> one_line s.
Proof.
  intros s [A B] N M. split; [auto|split; [auto|split]]; [intros c r ->; auto|]. intros c r ->. rewrite rev_app_distr in B. auto.
Qed.
Lemma starts_with_app : forall p s t, starts_with p s = true -> starts_with p (s ++ t) = true.
Proof. induction p as [|x p IH]; intros [|y s] t H; cbn in *; try discriminate; auto. apply andb_true_iff in H. destruct H as [-> H]. cbn. auto. Qed.
Lemma contains_app_l : forall p s t, contains p s = true -> contains p (s ++ t) = true.
Proof.
  intros p. induction s as [|y s IH]; intros t H.
  - cbn in H. rewrite orb_false_r in H. destruct p; [|discriminate]. destruct t; reflexivity.
  - cbn [contains] in H. cbn [app contains]. apply orb_true_iff in H. apply orb_true_iff. destruct H as [H|H]; [left|right; auto]. apply (starts_with_app p (y :: s) t). auto.
Qed.
Lemma contains_app_r : forall p s t, contains p t = true -> contains p (s ++ t) = true.
Proof. intros p. induction s as [|y s IH]; intros t H; [auto|]. cbn [app contains]. apply orb_true_iff. right. auto. Qed.
Lemma strip_contains : forall p s, contains p (strip s) = true -> contains p s = true.
Proof.
  intros p s H. destruct (lstrip_suffix s) as (a & E & _). destruct (lstrip_suffix (rev (lstrip s))) as (b & E' & _).
  rewrite E. apply contains_app_r. unfold strip, rstrip in H. rewrite <- (rev_involutive (lstrip s)), E', rev_app_distr. apply contains_app_l. auto.
Qed.
Lemma after_contains : forall p s, after p s = None <-> contains p s = false.
Proof.
  intros p. induction s as [|y s IH]; cbn.
  - destruct (starts_with p []); cbn; split; auto; discriminate.
  - destruct (starts_with p (y :: s)); cbn; [split; discriminate|]. auto.
Qed.
Lemma contains_no : forall p s c, In c p -> ~ In c s -> contains p s = false.
Proof.
  intros p s c I N. assert (S : forall t, ~ In c t -> starts_with p t = false).
  { clear s N. induction p as [|x p IH]; intros t N; [destruct I|]. destruct t as [|y t]; cbn; auto. destruct (Z.eqb_spec x y) as [->|]; auto. cbn. destruct I as [<-|I]; [exfalso; apply N; left; auto|]. apply IH; auto. intro; apply N; right; auto. }
  induction s as [|y s IH]; cbn; rewrite S by auto; auto. cbn. apply IH. intro; apply N; right; auto.
Qed.
Lemma trimmed_app3 : forall a m b, a <> [] -> b <> [] -> edge_ok a -> edge_ok (rev b) -> trimmed (a ++ m ++ b).
Proof.
  intros a m b NA NB A B. destruct a as [|x a]; [congruence|]. split; [exact A|]. rewrite !rev_app_distr. destruct (rev b) as [|y r] eqn:E; [exfalso; apply NB; rewrite <- (rev_involutive b), E; auto|]. exact B.
Qed.

Section Text.
  Context (show_float : Q -> str) (parse_float : str -> option Q) (version : str).
  Let load_line := load_line parse_float version.
  Let load_lines := load_lines parse_float version.

  Lemma load_app : forall a b st, load_lines (a ++ b) st = match load_lines a st with inr st1 => load_lines b st1 | inl e => inl e end.
  Proof. unfold load_lines. induction a as [|l a IH]; intros b st; cbn; auto. destruct (M_Config.load_line parse_float version l st); auto. Qed.

  (** The lines of the text. *)
  Definition help_lines (p : param) : list str :=
    match p_help p with Some [] => [[35; 32]] | Some ls => map (fun l => 35 :: 32 :: l) ls | None => [] end.
  Definition value_line (item : str) (p : param) : str :=
    match p_value p with VNone => 35 :: item ++ [32; 61; 32] | v => item ++ [32; 61; 32] ++ show show_float v end.
  Definition header (last : option str) (sec : str) : list str :=
    match last with Some l => if str_eqb sec l then [] else [[]; [91; 32] ++ sec ++ [32; 93]] | None => [[]; [91; 32] ++ sec ++ [32; 93]] end.
  Fixpoint body_lines (last : option str) (ps : list (str * param)) : list str :=
    match ps with
    | [] => []
    | (n, p) :: r => match rsplit1 46 n with
                     | Some (sec, item) => header last sec ++ help_lines p ++ [value_line item p; []] ++ body_lines (Some sec) r
                     | None => []
                     end
    end.
  Lemma param_unl : forall item p, param_text show_float item p = unl (help_lines p ++ [value_line item p]).
  Proof.
    intros item p. unfold param_text, help_lines, value_line. rewrite unl_app. f_equal.
    - destruct (p_help p) as [[|l ls]|]; auto. rewrite join_unl by discriminate. auto.
    - destruct (p_value p); cbn [unl flat_map]; rewrite app_nil_r; cbn [app]; rewrite <- ?app_assoc; auto.
  Qed.
  Lemma body_unl : forall ps last, Forall (fun x => good_name (fst x)) ps -> body_text show_float last ps = Some (unl (body_lines last ps)).
  Proof.
    induction ps as [|[n p] ps IH]; intros last G; [reflexivity|]. inversion G as [|x l (sec & item & E & N & _) G']; subst. cbn [body_text body_lines]. cbn [fst] in E. subst n.
    rewrite rsplit1_found by auto. rewrite IH by auto. f_equal. rewrite param_unl. rewrite !unl_app. f_equal.
    - assert (X : [10; 91; 32] ++ sec ++ [32; 93; 10] = unl [[]; [91; 32] ++ sec ++ [32; 93]]) by (unfold unl; cbn; rewrite app_nil_r, <- app_assoc; reflexivity).
      unfold header. destruct last as [l|]; [destruct (str_eqb sec l); [reflexivity|]|]; exact X.
    - rewrite <- app_assoc. f_equal. cbn [unl flat_map app]. rewrite app_nil_r. rewrite <- !app_assoc. auto.
  Qed.

  (** What the lines do. *)
  Lemma comment_line : forall l st, contains s_version (35 :: l) = false -> load_line (35 :: l) st = inr st.
  Proof.
    intros l [[sec ps] ver] C. unfold load_line, M_Config.load_line.
    assert (E : strip (35 :: l) = 35 :: rstrip l \/ strip (35 :: l) = [35]).
    { unfold strip. cbn [lstrip]. replace (is_space 35) with false by reflexivity. unfold rstrip. cbn [rev]. destruct (lstrip (rev l ++ [35])) as [|x r] eqn:L.
      - exfalso. clear -L. induction (rev l) as [|y k IH]; cbn in L; [discriminate|]. destruct (is_space y); [auto|discriminate].
      - left. assert (K : lstrip (rev l ++ [35]) = lstrip (rev l) ++ [35]).
        { clear. induction (rev l) as [|y k IH]; cbn; auto. destruct (is_space y); auto. }
        rewrite <- L, K, rev_app_distr. reflexivity. }
    assert (A : after s_version (strip (35 :: l)) = None).
    { apply after_contains. destruct (contains s_version (strip (35 :: l))) eqn:X; auto. apply strip_contains in X. congruence. }
    destruct E as [E|E]; rewrite E in *; [|reflexivity]. destruct (rstrip l) as [|a [|b r]]; auto. rewrite A. reflexivity.
  Qed.
  Lemma blank_line : forall st, load_line [] st = inr st.
  Proof. intros [[sec ps] ver]. reflexivity. Qed.
  Lemma section_line : forall sec st, one_line sec -> ~ In 91 sec -> ~ In 93 sec -> load_line ([91; 32] ++ sec ++ [32; 93]) st = inr (Some sec, snd (fst st), snd st).
  Proof.
    intros sec [[s0 ps] ver] O N M. unfold load_line, M_Config.load_line. cbn [fst snd].
    rewrite strip_id by (split; [reflexivity|rewrite !rev_app_distr; reflexivity]).
    assert (D : forall c s, ~ In c s -> drop_char c s = s).
    { intros c. induction s as [|x s IH]; intro I; auto. unfold drop_char in *. cbn. destruct (Z.eqb_spec x c) as [->|]; [exfalso; apply I; left; auto|]. cbn. rewrite IH; auto. intro; apply I; right; auto. }
    assert (E : strip (drop_char 93 (drop_char 91 ([91; 32] ++ sec ++ [32; 93]))) = sec).
    { assert (E1 : drop_char 91 ([91; 32] ++ sec ++ [32; 93]) = [32] ++ sec ++ [32; 93]).
      { change (drop_char 91 ([91; 32] ++ sec ++ [32; 93])) with (32 :: drop_char 91 (sec ++ [32; 93])). cbn [app]. f_equal. apply D. intro I. apply in_app_or in I. destruct I as [I|[I|[I|[]]]]; auto; discriminate. }
      assert (E2 : drop_char 93 ([32] ++ sec ++ [32; 93]) = [32] ++ sec ++ [32]).
      { unfold drop_char. rewrite !filter_app. cbn [filter Z.eqb negb app Pos.eqb]. f_equal. f_equal. apply D. auto. }
      rewrite E1, E2. rewrite strip_pad by (repeat constructor). apply strip_id. apply one_line_trimmed. auto. }
    rewrite E. destruct sec as [|a [|b r]]; reflexivity.
  Qed.
  Definition upd (acc : list (str * param)) (x : str * param) : list (str * param) :=
    match p_value (snd x) with
    | VNone => acc
    | v => dput (fst x) (match dget (fst x) acc with Some p => set_value v p | None => mkP v None false end) acc
    end.
  Lemma show_good : forall d v, good_value show_float parse_float d v -> v <> VNone ->
    show show_float v <> [] /\ one_line (show show_float v) /\ read_value parse_float (show show_float v) = v.
  Proof.
    intros d v G N. destruct v as [|b|n|q|s]; [congruence| | | |]; cbn [show good_value] in *.
    - destruct b; (split; [discriminate|split; [apply trimmed_one_line; [split; reflexivity|cbn; lia|cbn; lia]|reflexivity]]).
    - split; [apply dec_ne|]. split; [apply trimmed_one_line; [apply dec_trimmed|apply dec_no; auto; lia|apply dec_no; auto; lia]|].
      unfold read_value. destruct (str_eqb_spec (dec n) s_true) as [E|]; [pose proof (parse_dec n) as P; rewrite E in P; discriminate|].
      destruct (str_eqb_spec (dec n) s_false) as [E|]; [pose proof (parse_dec n) as P; rewrite E in P; discriminate|]. rewrite parse_dec. auto.
    - destruct G as (G1 & G2 & G3 & G4 & G5 & G6). split; auto. split; auto. unfold read_value. destruct (str_eqb_spec (show_float q) s_true); [congruence|]. destruct (str_eqb_spec (show_float q) s_false); [congruence|]. rewrite G5, G6. auto.
    - destruct G as (G1 & G2 & G3 & G4 & G5 & G6). split; auto. split; auto. unfold read_value. destruct (str_eqb_spec s s_true); [congruence|]. destruct (str_eqb_spec s s_false); [congruence|]. rewrite G5, G6. destruct s; [congruence|auto].
  Qed.
  Lemma setting_line : forall sec item v d ps ver, one_line item -> ~ In 61 item -> (exists c r, item = c :: r /\ c <> 35 /\ c <> 91) ->
    good_value show_float parse_float d v -> v <> VNone ->
    load_line (item ++ [32; 61; 32] ++ show show_float v) (Some sec, ps, ver) =
    inr (Some sec, dput (dotted sec item) (match dget (dotted sec item) ps with Some p => set_value v p | None => mkP v None false end) ps, ver).
  Proof.
    intros sec item v d ps ver O N (c & r & E & N1 & N2) G NV. destruct (show_good d v G NV) as (S1 & S2 & S3).
    unfold load_line, M_Config.load_line. rewrite strip_id.
    2: { apply trimmed_app3; auto; [subst; discriminate| |]; [apply (one_line_trimmed item); auto|apply (one_line_trimmed _ S2)]. }
    assert (SP : split1 61 (item ++ [32; 61; 32] ++ show show_float v) = Some (item ++ [32], 32 :: show show_float v)).
    { change (item ++ [32; 61; 32] ++ show show_float v) with (item ++ ([32] ++ 61 :: 32 :: show show_float v)). rewrite app_assoc. apply split1_found. intro I. apply in_app_or in I. destruct I as [I|[I|[]]]; auto; discriminate. }
    rewrite SP. assert (SA : strip (item ++ [32]) = item) by (rewrite <- (app_nil_l (item ++ [32])); rewrite strip_pad by (repeat constructor); apply strip_id, one_line_trimmed; auto).
    assert (SB : strip (32 :: show show_float v) = show show_float v) by (rewrite <- (app_nil_r (32 :: _)); change (32 :: show show_float v) with ([32] ++ show show_float v); rewrite <- app_assoc; rewrite strip_pad by (repeat constructor); apply strip_id, one_line_trimmed; auto).
    rewrite SA, SB, S3. subst item.
    assert (L : exists x y z, (c :: r) ++ [32; 61; 32] ++ show show_float v = c :: x :: y :: z) by (destruct r as [|x [|y r]]; cbn; eauto).
    destruct L as (x & y & z & ->). destruct (Z.eqb_spec c 35); [congruence|]. destruct (Z.eqb_spec c 91); [congruence|]. reflexivity.
  Qed.
  Lemma body_load : forall defaults ps last sec acc ver,
    Forall (fun x => good_name (fst x) /\ good_help (snd x) /\ good_value show_float parse_float (option_map p_value (dget (fst x) defaults)) (p_value (snd x))) ps ->
    last = None \/ last = sec -> exists sec', load_lines (body_lines last ps) (sec, acc, ver) = inr (sec', fold_left upd ps acc, ver).
  Proof.
    intros defaults. induction ps as [|[n p] ps IH]; intros last sec acc ver G L; [exists sec; reflexivity|].
    inversion G as [|x l (N & H & V) G']; subst. cbn [fst snd] in *. destruct N as (s & item & E & N1 & N2 & N3 & N4 & N5 & N6 & N7 & N8). subst n.
    cbn [body_lines]. rewrite rsplit1_found by auto. rewrite load_app.
    assert (HL : load_lines (header last s) (sec, acc, ver) = inr (Some s, acc, ver)).
    { assert (X : load_lines [[]; [91; 32] ++ s ++ [32; 93]] (sec, acc, ver) = inr (Some s, acc, ver)).
      { unfold load_lines. cbn [M_Config.load_lines]. fold load_line. rewrite blank_line, section_line by auto. reflexivity. }
      unfold header. destruct last as [l|]; [|exact X]. destruct (str_eqb_spec s l) as [->|]; [|exact X]. destruct L as [L|L]; [discriminate|]. subst sec. reflexivity. }
    rewrite HL, load_app.
    assert (HH : load_lines (help_lines p) (Some s, acc, ver) = inr (Some s, acc, ver)).
    { assert (K : forall ls st, (forall l, In l ls -> contains s_version l = false) -> load_lines (map (fun l => 35 :: 32 :: l) ls) st = inr st).
      { induction ls as [|l ls IHl]; intros st C; [reflexivity|]. unfold load_lines. cbn [map M_Config.load_lines]. fold load_line. rewrite comment_line; [apply IHl; intros; apply C; right; auto|]. cbn. apply C. left. auto. }
      unfold good_help in H. unfold help_lines. destruct (p_help p) as [[|l ls]|]; [|apply K; intros; apply H; auto|reflexivity].
      unfold load_lines. cbn [M_Config.load_lines]. fold load_line. rewrite comment_line; reflexivity. }
    rewrite HH, load_app.
    assert (HV : load_lines [value_line item p; []] (Some s, acc, ver) = inr (Some s, upd acc (s ++ 46 :: item, p), ver)).
    { unfold load_lines. cbn [M_Config.load_lines]. fold load_line. unfold value_line, upd. cbn [fst snd]. destruct (p_value p) eqn:PV.
      - rewrite comment_line; [rewrite blank_line; reflexivity|]. apply (contains_no _ _ 58); [cbn; tauto|]. intros [I|I]; [discriminate|]. apply in_app_or in I. destruct I as [I|[I|[I|[I|[]]]]]; auto; discriminate.
      - rewrite (setting_line s item _ (option_map p_value (dget (s ++ 46 :: item) defaults))) by (auto; discriminate). rewrite blank_line. reflexivity.
      - rewrite (setting_line s item _ (option_map p_value (dget (s ++ 46 :: item) defaults))) by (auto; discriminate). rewrite blank_line. reflexivity.
      - rewrite (setting_line s item _ (option_map p_value (dget (s ++ 46 :: item) defaults))) by (auto; discriminate). rewrite blank_line. reflexivity.
      - rewrite (setting_line s item _ (option_map p_value (dget (s ++ 46 :: item) defaults))) by (auto; discriminate). rewrite blank_line. reflexivity. }
    rewrite HV. cbn [fold_left]. apply IH; auto.
  Qed.
  Lemma upd_current : forall ps acc n, NoDup (map fst ps) ->
    option_map p_value (dget n (fold_left upd ps acc)) =
    match option_map p_value (dget n ps) with Some VNone | None => option_map p_value (dget n acc) | Some v => Some v end.
  Proof.
    induction ps as [|[m p] ps IH]; intros acc n N; [reflexivity|]. cbn [fold_left map fst] in *. inversion N; subst. rewrite IH by auto. cbn [dget].
    destruct (str_eqb_spec m n) as [->|NE].
    - assert (X : dget n ps = None) by (apply dget_none; auto). rewrite X. cbn [option_map]. unfold upd. cbn [fst snd]. destruct (p_value p) eqn:PV; auto; rewrite dget_put, str_eqb_refl; cbn; destruct (dget n acc); auto.
    - assert (X : option_map p_value (dget n (upd acc (m, p))) = option_map p_value (dget n acc)).
      { unfold upd. cbn [fst snd]. destruct (str_eqb_spec m n); [congruence|]. destruct (p_value p); auto; rewrite dget_put; destruct (str_eqb_spec m n); congruence. }
      rewrite X. auto.
  Qed.
  Lemma body_no : forall defaults ps last c, c = 10 \/ c = 13 ->
    Forall (fun x => good_name (fst x) /\ good_help (snd x) /\ good_value show_float parse_float (option_map p_value (dget (fst x) defaults)) (p_value (snd x))) ps ->
    Forall (fun l => ~ In c l) (body_lines last ps).
  Proof.
    intros defaults. induction ps as [|[n p] ps IH]; intros last c C G; [constructor|]. inversion G as [|x l (N & H & V) G']; subst. cbn [fst snd] in *.
    destruct N as (s & item & E & N1 & N2 & N3 & N4 & N5 & N6 & N7 & N8). subst n. cbn [body_lines]. rewrite rsplit1_found by auto.
    assert (OL : forall t, one_line t -> ~ In c t) by (intros t (A & B & _); destruct C; subst; auto).
    apply Forall_app. split; [|apply Forall_app; split; [|apply Forall_app; split; [|apply IH; auto]]].
    - assert (X : Forall (fun l => ~ In c l) [[]; [91; 32] ++ s ++ [32; 93]]).
      { repeat constructor; auto. intro I. apply in_app_or in I. destruct I as [[I|[I|[]]]|I]; try lia. apply in_app_or in I. destruct I as [I|[I|[I|[]]]]; try lia. apply OL in I; auto. }
      unfold header. destruct last as [l|]; auto. destruct (str_eqb s l); auto.
    - unfold good_help in H. unfold help_lines. destruct (p_help p) as [[|l ls]|]; [repeat constructor; intros [I|[I|[]]]; lia| |constructor].
      apply Forall_forall. intros x I. apply in_map_iff in I. destruct I as (k & <- & I). destruct (H k I) as (A & B & _). intros [J|[J|J]]; try lia. destruct C; subst; auto.
    - constructor; [|constructor; auto]. unfold value_line.
      assert (IT : forall t, ~ In c t -> ~ In c (item ++ [32; 61; 32] ++ t)).
      { intros t T I. apply in_app_or in I. destruct I as [I|I]; [apply OL in I; auto|]. cbn in I. destruct I as [I|[I|[I|I]]]; auto; lia. }
      destruct (p_value p) eqn:PV.
      + intros [I|I]; [lia|]. apply (IT []); auto.
      + apply IT. apply OL. destruct (show_good _ _ V) as (_ & O & _); [discriminate|exact O].
      + apply IT. apply OL. destruct (show_good _ _ V) as (_ & O & _); [discriminate|exact O].
      + apply IT. apply OL. destruct (show_good _ _ V) as (_ & O & _); [discriminate|exact O].
      + apply IT. apply OL. destruct (show_good _ _ V) as (_ & O & _); [discriminate|exact O].
  Qed.
End Text.
