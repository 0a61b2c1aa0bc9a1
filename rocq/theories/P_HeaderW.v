(** Proofs about text file headers: what is written. *)
From Coq Require Import List ZArith Bool Lia.
From Verif Require Import LibList M_Py M_Str P_Str M_Header S_Header P_Header P_HeaderP.
Import ListNotations.
Open Scope Z_scope.

Section Write.
Context (sty : style) (c B W : Z) (Hs : is_space c = false) (HB : 1 <= B).
Definition fits (e : entry) : Prop := zlen (e_value e) + e_indent e + 1 + 2 * B + match sty with Box => 1 | Left => 0 end <= W.
Definition line_of (e : entry) : str := match entry_line sty c B W e with Some s => s | None => [] end.
Definition room (e : entry) : Z := W - 1 - e_indent e - match sty with Box => B + 1 | Left => 0 end.
Lemma fits_room e : fits e -> zlen (e_value e) + B <= room e.
Proof. unfold fits, room. destruct sty; lia. Qed.
Lemma filled e : fits e -> exists s, fill (room e) (e_value e) = Some s.
Proof. intro F. apply fits_room in F. unfold fill. destruct (Z.leb_spec (zlen (e_value e)) (room e)); [eexists; reflexivity|lia]. Qed.
Lemma line_some e : fits e -> entry_line sty c B W e = Some (line_of e).
Proof. intro F. unfold line_of. destruct (entry_line sty c B W e) eqn:E; [reflexivity|]. exfalso. unfold entry_line in E. destruct (e_kind e); try discriminate. fold (room e) in E. destruct (filled e F) as [s Q]. rewrite Q in E. discriminate. Qed.
Lemma all_some l : Forall fits l -> all_lines (entry_line sty c B W) l = Some (map line_of l).
Proof. induction 1 as [|e l F _ IH]; [reflexivity|]. cbn. rewrite (line_some e F), IH. reflexivity. Qed.
Lemma text_line e : fits e -> e_kind e = KText -> no_blank_ends (e_value e) -> one_line (e_value e) -> line_of e = match sty with
  | Box => [c] ++ spaces (e_indent e) ++ e_value e ++ (spaces (room e - zlen (e_value e)) ++ spaces B) ++ [c]
  | Left => [c] ++ spaces (e_indent e) ++ e_value e ++ [] end.
Proof.
  intros F K N O. unfold line_of, entry_line. rewrite K. fold (room e). pose proof (fits_room e F) as R. rewrite fill_id by (assumption || lia). destruct sty; [|rewrite app_nil_r; reflexivity]. unfold ljust. rewrite <- !app_assoc. reflexivity.
Qed.
Lemma pads a b : Forall (fun x => is_space x = true) (spaces a ++ spaces b).
Proof. apply Forall_app. split; apply spaces_all. Qed.
Lemma line_clean e : fits e -> e_kind e = KText -> 1 <= e_indent e -> no_blank_ends (e_value e) -> one_line (e_value e) -> ~ In c (e_value e) -> starts_with [c] (line_of e) = true /\ clean c (line_of e) = spaces (e_indent e) ++ e_value e.
Proof.
  intros F K I N O C. rewrite (text_line e F K N O). destruct sty; (split; [apply starts_c|]).
  - apply (clean_text c (e_indent e) (e_value e) _ Hs N C (pads _ _)).
  - apply (clean_text c (e_indent e) (e_value e) [] Hs N C (Forall_nil _)).
Qed.
Lemma firstn_rep n m : firstn n (repeat c m) = repeat c (Nat.min n m).
Proof. revert m. induction n as [|n IH]; intros [|m]; cbn; [reflexivity..|]. rewrite IH. reflexivity. Qed.
Lemma deco_clean e : e_kind e = KRule \/ e_kind e = KBlank -> clean c (line_of e) = [] /\ safe c (line_of e) /\ ~ In 10 (line_of e).
Proof.
  assert (C10 : c <> 10) by (intro E; rewrite E in Hs; discriminate).
  assert (R : forall n, clean c (repeat c n) = [] /\ safe c (repeat c n) /\ ~ In 10 (repeat c n)).
  { intro n. split; [apply clean_rule|]. split; [apply safe_rule; exact Hs|]. intro X. apply repeat_spec in X. congruence. }
  intro K. unfold line_of, entry_line. destruct K as [-> | ->]; destruct sty.
  - apply R.
  - rewrite firstn_rep. apply R.
  - unfold blank_line. split; [apply clean_blank; exact Hs|]. split; [apply safe_blank; exact Hs|]. intro X. apply in_app_or in X. destruct X as [[X|[]]|X]; [congruence|]. apply in_app_or in X. destruct X as [X|[X|[]]]; [apply repeat_spec in X; discriminate|congruence].
  - apply (R 1%nat).
Qed.
(** *** What the entries of a readable header are *)
Definition tidy (e : entry) : Prop :=
  (e_kind e = KRule \/ e_kind e = KBlank) \/
  (e_kind e = KText /\ 1 <= e_indent e /\ no_blank_ends (e_value e) /\ one_line (e_value e) /\ ~ In c (e_value e) /\ forall r, starts_with dots (e_value e ++ r) = false).
Lemma tidy_line e : fits e -> tidy e -> safe c (line_of e) /\ ~ In 10 (line_of e) /\ (clean c (line_of e) = [] \/ 1 <= zlen (clean c (line_of e)) - zlen (lstrip (clean c (line_of e)))).
Proof.
  assert (C10 : c <> 10) by (intro E; rewrite E in Hs; discriminate).
  intros F [D|(K & I & N & O & C & S)].
  - destruct (deco_clean e D) as (A1 & A2 & A3). auto.
  - destruct (line_clean e F K I N O C) as [_ Q]. split; [|split].
    + rewrite (text_line e F K N O). destruct N as (N & A & _). destruct sty; apply safe_text; auto.
    + rewrite (text_line e F K N O). assert (V : ~ In 10 (e_value e)) by (intro X; apply (O 10 X); lia).
      assert (P : forall n, ~ In 10 (spaces n)) by (intros n X; apply repeat_spec in X; discriminate).
      destruct sty; rewrite !in_app_iff; cbn [In]; intro X; decompose [or] X; try contradiction; try congruence; eapply P; eassumption.
    + right. rewrite Q. destruct N as (N & A & _). rewrite (text_indent (e_indent e) (e_value e)) by (auto; lia). exact I.
Qed.
End Write.

Lemma width_fits sty B fixed l e : fixed <= 0 -> In e l -> fits sty B (width_of sty B fixed l) e.
Proof.
  intros F I. unfold fits, width_of. destruct (Z.leb_spec fixed 0); [|lia].
  assert (M : zlen (e_value e) + e_indent e <= fold_right Z.max 0 (map (fun e => zlen (e_value e) + e_indent e) l)).
  { clear - I. induction l as [|x l IH]; [destruct I|]. cbn. destruct I as [->|I]; [lia|]. specialize (IH I). lia. }
  destruct sty; lia.
Qed.

Section All.
Context {J : Type} (loads : str -> option J) (of_text : str -> J) (as_text : J -> option str) (plus : J -> str -> option J) (dumps : J -> str).
Context (c B : Z) (Hc : good_comment c) (HB : 1 <= B).
Lemma tidy_entries : forall m l, (sizes l <= m)%nat -> readable dumps loads c l -> forall n, Forall (tidy c) (flat_map (entries c B (B * (Z.of_nat n + 1))) (map (call_of dumps) l)).
Proof.
  induction m as [m IHm] using lt_wf_ind. intros l Hm R n. destruct l as [|i l]; [constructor|].
  inversion R as [l0 ND SF RE RG Ql]. subst l0.
  assert (Sz : (sizes l < m)%nat) by (rewrite sizes_cons in Hm; pose proof (size_pos i); lia).
  assert (R' : readable dumps loads c l).
  { constructor; [|apply sections_tail in SF; exact SF|intros k v K; apply RE; right; exact K|intros k b K; apply RG; right; exact K]. destruct i; cbn in ND; try exact ND; inversion ND; assumption. }
  assert (I1 : 1 <= B * (Z.of_nat n + 1)) by nia.
  cbn [map flat_map]. apply Forall_app. split; [|apply (IHm (sizes l) Sz l (le_n _) R')]. destruct i as [k v|k b| |].
  - destruct (RE k v (or_introl eq_refl)) as [GK GV]. destruct (value_text loads dumps c Hc k v GK GV) as (T1 & T2 & T3). constructor; [|constructor]. right. cbn [e_kind e_indent e_value]. repeat (split; [assumption||reflexivity|]).
    intro r. rewrite <- app_assoc. cbn [app]. apply good_dots. apply GK.
  - destruct (RG k b (or_introl eq_refl)) as (GK & NB & RB). destruct (group_text c k Hc GK) as (T0 & T1 & T2 & T3). cbn [call_of entries]. constructor.
    + right. cbn [e_kind e_indent e_value]. rewrite T0. repeat (split; [assumption||reflexivity|]). intro r. rewrite <- app_assoc. cbn [app]. apply good_dots. apply GK.
    + replace (B * (Z.of_nat n + 1) + B) with (B * (Z.of_nat (S n) + 1)) by lia. apply (IHm (sizes b)); [rewrite sizes_cons, size_group in Hm; lia|apply le_n|exact RB].
  - constructor; [|constructor]. left. left. reflexivity.
  - constructor; [|constructor]. left. right. reflexivity.
Qed.

Notation step := (step loads of_text as_text plus c).
Notation steps := (steps loads of_text as_text plus c).
Notation step0 := (step0 loads of_text as_text plus c).
Notation steps0 := (steps0 loads of_text as_text plus c).
Definition calm (l : str) : Prop := safe c l /\ (clean c l = [] \/ 1 <= zlen (clean c l) - zlen (lstrip (clean c l))).
Lemma step_calm s l next : calm l -> safe_next c next -> step s l next = step0 s l.
Proof.
  intros [_ [E|I]] N.
  - unfold P_HeaderP.step0. rewrite !skip by exact E. reflexivity.
  - unfold P_HeaderP.step0. unfold clean in I. unfold M_Header.step. destruct (starts_with [c] l); [|reflexivity]. cbn [negb]. destruct (rstrip (drop_char c l)) as [|x r] eqn:Q; [reflexivity|]. rewrite <- Q in *. cbv zeta.
    rewrite (will_not c _ next I N). reflexivity.
Qed.
Lemma steps_calm : forall ls s, Forall calm ls -> steps s ls = steps0 s ls.
Proof.
  induction ls as [|l ls IH]; intros s F; [reflexivity|]. inversion F as [|x y F1 F2]; subst. cbn. rewrite step_calm; [|exact F1|destruct ls as [|n ls]; [exact Logic.I|inversion F2 as [|a b F3]; apply F3]].
  destruct (step0 s l); [apply IH; exact F2|reflexivity].
Qed.
Lemma quiet_lines : forall ls s, Forall (fun l => clean c l = []) ls -> steps0 s ls = Ok s.
Proof. induction ls as [|l ls IH]; intros s F; [reflexivity|]. inversion F as [|x y F1 F2]; subst. cbn. unfold P_HeaderP.step0. rewrite skip by exact F1. apply IH, F2. Qed.
Lemma split_text ls rest : Forall (fun l => ~ In 10 l) ls -> split 10 (text_of ls ++ rest) = ls ++ split 10 rest.
Proof. induction 1 as [|l ls F _ IH]; [reflexivity|]. cbn [text_of flat_map]. rewrite <- !app_assoc. cbn [app]. rewrite split_app by exact F. unfold text_of in IH. rewrite IH. reflexivity. Qed.

Theorem round_trip sty fixed l rest : fixed <= 0 -> readable dumps loads c l -> Forall (fun x => starts_with [c] x = false) (split 10 rest) ->
  exists ls, write sty c B fixed (map (call_of dumps) l) = Some ls /\ parse_header loads of_text as_text plus c (text_of ls ++ rest) = Ok (meaning l).
Proof.
  intros F R Q. pose proof Hc as [Hs H58].
  assert (Qr : Forall (fun x => clean c x = []) (split 10 rest)) by (eapply Forall_impl; [|exact Q]; intros x X; unfold clean; rewrite X; reflexivity).
  assert (Qc : Forall calm (split 10 rest)) by (apply Forall_forall; intros x X; split; [apply safe_other; apply (proj1 (Forall_forall _ _) Q x X)|left; apply (proj1 (Forall_forall _ _) Qr x X)]).
  unfold write, contents. set (es := flat_map (entries c B B) (map (call_of dumps) l)). set (W := width_of sty B fixed es).
  assert (Eb : B * (Z.of_nat 0 + 1) = B) by (cbn; lia).
  pose proof (tidy_entries (sizes l) l (le_n _) R 0) as T. rewrite Eb in T. fold es in T.
  assert (Fi : Forall (fits sty B W) es) by (apply Forall_forall; intros e E; apply width_fits; assumption).
  set (ls := map (line_of sty c B W) es).
  assert (Cl : Forall (fun x => calm x /\ ~ In 10 x) ls).
  { unfold ls. apply Forall_map. apply Forall_forall. intros e E. rewrite Forall_forall in T, Fi. destruct (tidy_line sty c B W Hs HB e (Fi e E) (T e E)) as (A1 & A2 & A3). split; [split; assumption|assumption]. }
  destruct (forest loads of_text as_text plus dumps c B Hc HB (line_of sty c B W) (fits sty B W)) with (m := sizes l) (l := l) (n := 0%nat) (p := @nil str) (d := @nil (str * node J)) (s := mkS (@nil (str * node J)) [] (-1) (-1)) (f := true) as [s' (A1 & A2 & _)].
  { intros e. apply line_clean; assumption. }
  { intros e K. apply (deco_clean sty c B W Hs e K). }
  { apply le_n. } { exact R. } { split; [reflexivity|]. split; [reflexivity|]. left. auto. } { reflexivity. } { intros k _ []. }
  { unfold all_fit. rewrite Eb. fold es. apply Forall_forall. exact Fi. }
  unfold lines in A1. rewrite Eb in A1. fold es in A1. fold ls in A1. cbn [set_at p_root app] in A2.
  assert (Deco : forall n, (calm (repeat c n) /\ ~ In 10 (repeat c n)) /\ clean c (repeat c n) = []).
  { intro n. destruct (deco_clean Box c B (Z.of_nat n) Hs (mkE KRule [] 0) (or_introl eq_refl)) as (D1 & D2 & D3). unfold line_of, entry_line in D1, D2, D3. cbn in D1, D2, D3. unfold rule_line in *. rewrite Nat2Z.id in *. split; [split; [split; [exact D2|left; exact D1]|exact D3]|exact D1]. }
  assert (Deco2 : (calm (blank_line c W) /\ ~ In 10 (blank_line c W)) /\ clean c (blank_line c W) = []).
  { destruct (deco_clean Box c B W Hs (mkE KBlank [] 0) (or_intror eq_refl)) as (D1 & D2 & D3). split; [split; [split; [exact D2|left; exact D1]|exact D3]|exact D1]. }
  assert (Parse : forall a b, Forall (fun x => (calm x /\ ~ In 10 x) /\ clean c x = []) a -> Forall (fun x => (calm x /\ ~ In 10 x) /\ clean c x = []) b -> parse_header loads of_text as_text plus c (text_of (a ++ ls ++ b) ++ rest) = Ok (meaning l)).
  { intros a b Ha Hb. assert (All : Forall (fun x => calm x /\ ~ In 10 x) (a ++ ls ++ b)) by (apply Forall_app; split; [eapply Forall_impl; [|exact Ha]; intros x X; apply X|apply Forall_app; split; [exact Cl|eapply Forall_impl; [|exact Hb]; intros x X; apply X]]).
    unfold parse_header, parse_lines. rewrite split_text by (eapply Forall_impl; [|exact All]; intros x X; apply X).
    rewrite steps_calm by (apply Forall_app; split; [eapply Forall_impl; [|exact All]; intros x X; apply X|exact Qc]).
    rewrite <- !app_assoc. rewrite steps0_app. rewrite (quiet_lines a) by (eapply Forall_impl; [|exact Ha]; intros x X; apply X). cbn [bind]. rewrite steps0_app, A1. cbn [bind]. rewrite steps0_app, (quiet_lines b) by (eapply Forall_impl; [|exact Hb]; intros x X; apply X). cbn [bind]. rewrite (quiet_lines _ _ Qr). cbn [bind]. rewrite A2. reflexivity. }
  assert (AS : all_lines (entry_line sty c B W) es = Some ls) by (apply all_some; assumption).
  assert (Els : es = [] -> ls = []) by (intro X; unfold ls; rewrite X; reflexivity).
  clearbody ls W. clear T Fi. destruct es as [|e0 es0].
  - exists []. split; [reflexivity|]. rewrite (Els eq_refl) in Parse. apply (Parse [] []); constructor.
  - rewrite AS. destruct sty.
    + eexists. split; [reflexivity|]. apply (Parse [rule_line c W; blank_line c W] [blank_line c W; rule_line c W]); repeat constructor; apply Deco || apply Deco2.
    + eexists. split; [reflexivity|]. rewrite <- (app_nil_r ls). apply (Parse [] []); constructor.
Qed.
End All.

(** *** The box *)
Definition to_entry (c B : Z) (r : row) : entry := match r with Bar => mkE KRule [c] 0 | Empty => mkE KBlank [] 0 | Words n t => mkE KText t (B * Z.of_nat n) end.
Lemma rows_entries c B : forall k n, entries c B (B * Z.of_nat n) k = map (to_entry c B) (rows n k).
Proof.
  fix IH 1. intros k n. destruct k as [| |s|key t|t b]; try reflexivity.
  cbn [entries rows map]. f_equal. replace (B * Z.of_nat n + B) with (B * Z.of_nat (S n)) by lia. generalize (S n). clear n. intro n. induction b as [|x b IHb]; [reflexivity|]. cbn [flat_map]. rewrite map_app, IHb, (IH x n). reflexivity.
Qed.
Lemma contents_rows c B l : contents c B l = map (to_entry c B) (flat_map (rows 1) l).
Proof.
  unfold contents. induction l as [|x l IH]; [reflexivity|]. cbn [flat_map]. rewrite map_app, IH. f_equal. replace B with (B * Z.of_nat 1) at 2 by lia. apply rows_entries.
Qed.
Lemma repeat_blanks n : blanks (spaces n).
Proof. intros x X. apply repeat_spec in X. exact X. Qed.
Lemma blanks_app a b : blanks a -> blanks b -> blanks (a ++ b).
Proof. intros A B x X. apply in_app_or in X. destruct X; auto. Qed.
Lemma len_rule c w : 0 <= w -> Z.of_nat (length (rule_line c w)) = w.
Proof. intro H. unfold rule_line. rewrite repeat_length. lia. Qed.
Lemma len_blank c w : 2 <= w -> Z.of_nat (length (blank_line c w)) = w.
Proof. intro H. unfold blank_line. rewrite !app_length. unfold spaces. rewrite repeat_length. cbn [length]. lia. Qed.
Lemma looks_bar c B w : 0 <= w -> looks c B w Bar (rule_line c w).
Proof. intro H. split; [apply len_rule, H|]. intros x X. apply repeat_spec in X. exact X. Qed.
Lemma looks_empty c B w : 2 <= w -> looks c B w Empty (blank_line c w).
Proof. intro H. split; [apply len_blank, H|]. exists (spaces (w - 2)). split; [apply repeat_blanks|reflexivity]. Qed.
Theorem boxed c B fixed calls : 1 <= B -> fixed <= 0 -> calls <> [] -> (forall n t, In (Words n t) (flat_map (rows 1) calls) -> no_blank_ends t /\ one_line t) ->
  exists ls w, write Box c B fixed calls = Some ls /\ Forall2 (looks c B w) ([Bar; Empty] ++ flat_map (rows 1) calls ++ [Empty; Bar]) ls.
Proof.
  intros HB F N T. unfold write. rewrite contents_rows. set (rs := flat_map (rows 1) calls) in *.
  assert (Nr : rs <> []). { unfold rs. destruct calls as [|k l]; [contradiction|]. cbn. destruct k; discriminate. }
  set (es := map (to_entry c B) rs). set (W := width_of Box B fixed es).
  assert (HW : 4 <= W).
  { unfold W, width_of. destruct (Z.leb_spec fixed 0); [|lia]. assert (0 <= fold_right Z.max 0 (map (fun e => zlen (e_value e) + e_indent e) es)) by (clear; generalize es; intro l; induction l as [|e l IH]; cbn; lia). lia. }
  assert (Fi : Forall (fits Box B W) es) by (apply Forall_forall; intros e E; apply width_fits; assumption).
  rewrite (all_some Box c B W HB es Fi). exists ([rule_line c W; blank_line c W] ++ map (line_of Box c B W) es ++ [blank_line c W; rule_line c W]), W.
  split.
  { destruct es as [|e l] eqn:E; [|reflexivity]. exfalso. unfold es in E. destruct rs; [contradiction|discriminate]. }
  cbn [app]. constructor; [apply looks_bar; lia|]. constructor; [apply looks_empty; lia|].
  apply Forall2_app; [|constructor; [apply looks_empty; lia|constructor; [apply looks_bar; lia|constructor]]].
  unfold es in *. clearbody W rs. clear es Nr. induction rs as [|r rs IH]; [constructor|]. cbn [map] in *. inversion Fi as [|x y F1 F2]; subst. constructor; [|apply IH; [intros n t K; apply (T n t); right; exact K|exact F2]].
  destruct r as [| |n t].
  - apply looks_bar. lia.
  - apply looks_empty. lia.
  - destruct (T n t (or_introl eq_refl)) as [T1 T2]. pose proof (fits_room Box c B W HB _ F1) as Fr. rewrite text_line by (assumption || reflexivity). cbn [to_entry e_indent e_value] in *. unfold room in *. cbn [e_indent] in *.
    set (p := spaces _ ++ spaces B). assert (Lp : Z.of_nat (length p) = W - 1 - B * Z.of_nat n - 1 - zlen t).
    { unfold p, spaces. rewrite app_length, !repeat_length. lia. }
    split.
    + cbn [app length]. rewrite !app_length. unfold spaces at 1. rewrite repeat_length. cbn [length]. unfold zlen in *. nia.
    + exists (spaces (B * Z.of_nat n)), p. split; [apply repeat_blanks|]. split; [apply blanks_app; apply repeat_blanks|]. split; [reflexivity|]. split; [unfold spaces; rewrite repeat_length; nia|]. intro E. rewrite E in Lp. cbn in Lp. unfold zlen in *. lia.
Qed.
