(** Lemmas for C103: reading declarations. *)
From Coq Require Import String.
From Coq Require Import List ZArith Bool Lia.
From Verif Require Import M_CStruct S_CStruct P_Str.
Import ListNotations.
Open Scope Z_scope.

Ltac chr := unfold type_char, name_char, dim_char, is_lower, is_upper, is_blank, is_digit in *;
  rewrite ?Bool.orb_true_iff, ?Bool.orb_false_iff, ?Bool.andb_true_iff, ?Bool.andb_false_iff,
          ?Z.leb_le, ?Z.leb_gt, ?Z.eqb_eq, ?Z.eqb_neq in *; try lia.

Definition stops (p : Z -> bool) (s : str) : Prop := match s with [] => True | c :: _ => p c = false end.
Lemma span_app : forall p a b, Forall (fun c => p c = true) a -> stops p b -> span p (a ++ b) = (a, b).
Proof.
  induction a as [|c a IH]; intros b Ha Hb.
  - destruct b as [|x b]; cbn; [reflexivity|]. cbn in Hb. now rewrite Hb.
  - inversion Ha as [|? ? Hc Ha']; subst. cbn [app span]. rewrite Hc, IH; auto.
Qed.
Lemma span_split : forall p s, exists a b, s = a ++ b /\ Forall (fun c => p c = true) a /\ stops p b.
Proof.
  induction s as [|c s (a & b & -> & A & B)]; [exists [], []; cbn; auto|].
  destruct (p c) eqn:E.
  - exists (c :: a), b. cbn. auto.
  - exists [], (c :: a ++ b). cbn. auto.
Qed.
Lemma last_blank_none : forall s, Forall (fun c => is_blank c = false) s -> last_blank s = None.
Proof. induction s as [|c s IH]; intro H; [reflexivity|]. inversion H; subst. cbn. rewrite IH by auto. now rewrite H2. Qed.
Lemma last_blank_app : forall a c w, is_blank c = true -> Forall (fun c => is_blank c = false) w -> last_blank (a ++ c :: w) = Some (a, w).
Proof.
  induction a as [|x a IH]; intros c w Hc Hw; cbn [app last_blank].
  - rewrite last_blank_none by auto. now rewrite Hc.
  - rewrite IH; auto.
Qed.

Lemma groups_ok : forall es n rest, (length es <= n)%nat ->
  Forall (fun e => e <> [] /\ Forall (fun c => dim_char c = true) e) es ->
  match rest with 91 :: _ => False | _ => True end ->
  groups n (concat (map (fun e => 91 :: e ++ [93]) es) ++ rest) = (es, rest).
Proof.
  induction es as [|e es IH]; intros n rest L H R.
  - cbn [map concat app]. destruct n; [reflexivity|]. cbn [groups].
    destruct rest as [|c rest]; [reflexivity|]. destruct (Z.eq_dec c 91) as [->|NE]; [contradiction|].
    destruct c as [|q|q]; try reflexivity. repeat (destruct q; try reflexivity). now contradiction NE.
  - destruct n as [|n]; [cbn in L; lia|]. inversion H as [|? ? [He1 He2] Hes]; subst.
    cbn [map concat app groups]. rewrite <- !app_assoc. cbn [app].
    rewrite (span_app dim_char e) by (auto; reflexivity).
    destruct e as [|x e]; [now contradiction He1|]. rewrite IH; auto. cbn in L. lia.
Qed.

Section TYPES.
  Variable ci : bool.
  Definition base_of (t : ctype) : base :=
    match t with
    | Int => CInt 4 true | UInt => CInt 4 false | Short => CInt 2 true | UShort => CInt 2 false
    | Long | LongLong => CInt 8 true | ULong | ULongLong => CInt 8 false | Float => CFloat 4 | Double => CFloat 8
    | Char => if ci then CInt 1 true else CChar | SChar => CInt 1 true | UChar => CInt 1 false
    end.
  Lemma type_of_spelling : forall t sp, In sp (spellings t) -> type_of ci sp = Some (base_of t).
  Proof.
    intros t sp H. destruct t; cbn [spellings map In] in H; repeat (destruct H as [<-|H]; [vm_compute; reflexivity|]); contradiction.
  Qed.
  Lemma spelling_shape : forall t sp, In sp (spellings t) ->
    Forall (fun c => type_char c = true) sp /\ (exists c r, sp = c :: r /\ is_lower c = true) /\ 3 <= zlen sp /\ rstrip sp = sp /\
    (exists r c, sp = r ++ [c] /\ is_space c = false).
  Proof.
    intros t sp H.
    assert (K : forallb (fun sp => forallb type_char sp && (match sp with c :: _ => is_lower c | [] => false end) && (3 <=? zlen sp)
                         && str_eqb (rstrip sp) sp && negb (is_space (last sp 32))) (spellings t) = true) by (destruct t; vm_compute; reflexivity).
    rewrite forallb_forall in K. specialize (K _ H). rewrite !andb_true_iff in K. destruct K as ((((K1 & K2) & K3) & K4) & K5).
    split; [|split; [|split; [|split]]].
    - rewrite forallb_forall in K1. now apply Forall_forall.
    - destruct sp as [|c r]; [discriminate|]. eauto.
    - now apply Z.leb_le.
    - destruct (str_eqb_spec (rstrip sp) sp); [auto|discriminate].
    - destruct sp as [|c r]; [discriminate|]. exists (removelast (c :: r)), (last (c :: r) 32).
      split; [now apply app_removelast_last|]. now apply negb_true_iff.
  Qed.
End TYPES.

(** ** Dimensions *)
Section DIMS.
  Variable m : list (str * Z).
  Let macros := lookup m.
  Lemma factor_atom : forall a v, atom_value macros a v -> factor m (atom_text a) = Some v.
  Proof.
    intros [n|c s] v H; cbn in H |- *.
    - destruct H as [Hn ->]. unfold factor, dec. destruct (n <? 0) eqn:E; [apply Z.ltb_lt in E; lia|].
      destruct (dec_nat_spec n Hn) as (NE & D & V).
      assert (AD : all_digits (dec_nat n) = true).
      { unfold all_digits. destruct (dec_nat n); [now contradiction NE|]. apply forallb_forall. now apply Forall_forall. }
      rewrite AD. f_equal. exact V.
    - destruct H as (Hc & Hs & Hm). unfold factor.
      assert (AD : all_digits (c :: s) = false).
      { cbn [all_digits forallb]. apply andb_false_iff. left. unfold capital in Hc. destruct (is_digit c) eqn:E; [|reflexivity]. exfalso. chr. }
      rewrite AD. exact Hm.
  Qed.
  Lemma atom_chars : forall a v, atom_value macros a v -> atom_text a <> [] /\ Forall (fun c => dim_char c = true /\ c <> 42 /\ c <> 43) (atom_text a).
  Proof.
    intros [n|c s] v H; cbn in H |- *.
    - destruct H as [Hn ->]. split; [apply dec_ne|]. unfold dec. destruct (n <? 0) eqn:E; [apply Z.ltb_lt in E; lia|].
      destruct (dec_nat_spec n Hn) as (_ & D & _). eapply Forall_impl; [|exact D]. intros c Hc. cbn beta in Hc. split; [|]; chr.
    - destruct H as (Hc & Hs & _). split; [discriminate|]. constructor.
      + unfold capital in Hc. split; chr.
      + eapply Forall_impl; [|exact Hs]. unfold capital. intros x Hx. cbn beta in Hx. split; chr.
  Qed.
  Lemma opt_all_map : forall A B (f : A -> option B) l vs, Forall2 (fun a v => f a = Some v) l vs -> opt_all (map f l) = Some vs.
  Proof. intros A B f l vs H. induction H as [|a v l vs H1 H2 IH]; [reflexivity|]. cbn. now rewrite H1, IH. Qed.
  Lemma fold_mul_acc : forall l a, fold_left Z.mul l a = a * fold_right Z.mul 1 l.
  Proof. induction l as [|x l IH]; intro a; cbn; [lia|]. rewrite IH. ring. Qed.
  Lemma fold_add_acc : forall l a, fold_left Z.add l a = a + fold_right Z.add 0 l.
  Proof. induction l as [|x l IH]; intro a; cbn; [lia|]. rewrite IH. ring. Qed.
  Lemma join_ne : forall c l, l <> [] -> Forall (fun s => s <> []) l -> join c l <> [].
  Proof.
    intros c [|s l] NE H; [now contradiction NE|]. inversion H; subst. destruct l as [|t l]; cbn; [auto|].
    intro E. apply app_eq_nil in E. destruct E as [_ E]. discriminate.
  Qed.
  Lemma join_Forall : forall (P : Z -> Prop) c l, P c -> Forall (Forall P) l -> Forall P (join c l).
  Proof.
    intros P c l Hc. induction l as [|s l IH]; intro H; [constructor|]. inversion H; subst.
    destruct l as [|t l]; [auto|]. change (join c (s :: t :: l)) with (s ++ c :: join c (t :: l)).
    apply Forall_app. split; [auto|]. constructor; auto.
  Qed.
  Lemma product_text : forall p vs, p <> [] -> Forall2 (atom_value macros) p vs ->
    product m (join 42 (map atom_text p)) = Some (fold_right Z.mul 1 vs).
  Proof.
    intros p vs NE H. unfold product. rewrite split_join.
    - rewrite map_map. rewrite (opt_all_map _ _ _ p vs).
      + rewrite fold_mul_acc. f_equal. lia.
      + clear NE. induction H as [|a v p vs H1 H2 IH]; constructor; [now apply factor_atom|auto].
    - intro E. apply map_eq_nil in E. auto.
    - clear NE. induction H as [|a v p vs H1 H2 IH]; constructor; [|auto].
      destruct (atom_chars _ _ H1) as [_ F]. intro I. rewrite Forall_forall in F. specialize (F _ I). tauto.
  Qed.
  Lemma prod_chars : forall p vs, p <> [] -> Forall2 (atom_value macros) p vs ->
    join 42 (map atom_text p) <> [] /\ Forall (fun c => dim_char c = true /\ c <> 43) (join 42 (map atom_text p)).
  Proof.
    intros p vs NE H. split.
    - apply join_ne; [intro E; apply map_eq_nil in E; auto|]. clear NE.
      induction H as [|a v p vs H1 H2 IH]; constructor; auto. apply (atom_chars _ _ H1).
    - apply join_Forall; [split; [reflexivity|lia]|]. clear NE.
      induction H as [|a v p vs H1 H2 IH]; constructor; auto. eapply Forall_impl; [|apply (atom_chars _ _ H1)]. cbn. tauto.
  Qed.
  Lemma dimension_text : forall e v, dim_value macros e v -> dimension m (dim_text e) = Some v.
  Proof.
    intros e v (NE & NEs & vs & H & ->). unfold dimension, dim_text. rewrite split_join.
    - rewrite map_map. rewrite (opt_all_map _ _ _ e (map (fold_right Z.mul 1) vs)).
      + rewrite fold_add_acc. f_equal.
      + clear NE. induction H as [|p v e vs H1 H2 IH]; cbn; constructor; inversion NEs; subst; [now apply product_text|auto].
    - intro E. apply map_eq_nil in E. auto.
    - clear NE. induction H as [|p v e vs H1 H2 IH]; cbn; constructor; inversion NEs; subst; auto.
      destruct (prod_chars p v) as [_ F]; auto. intro I. rewrite Forall_forall in F. specialize (F _ I). tauto.
  Qed.
  Lemma dim_chars : forall e v, dim_value macros e v -> dim_text e <> [] /\ Forall (fun c => dim_char c = true) (dim_text e).
  Proof.
    intros e v (NE & NEs & vs & H & ->). unfold dim_text. split.
    - apply join_ne; [intro E; apply map_eq_nil in E; auto|]. clear NE.
      induction H as [|p v e vs H1 H2 IH]; cbn; constructor; inversion NEs; subst; auto. apply (prod_chars p v); auto.
    - apply join_Forall; [reflexivity|]. clear NE.
      induction H as [|p v e vs H1 H2 IH]; cbn; constructor; inversion NEs; subst; auto.
      eapply Forall_impl; [|apply (prod_chars p v); auto]. cbn. tauto.
  Qed.
End DIMS.

(** ** A line *)
Lemma lstrip_mid : forall x c y, is_space c = false -> lstrip (x ++ c :: y) = lstrip x ++ c :: y.
Proof.
  induction x as [|a x IH]; intros c y H; cbn [app lstrip]; [now rewrite H|].
  destruct (is_space a); [apply IH; auto|reflexivity].
Qed.
Lemma rstrip_mid : forall a c t, is_space c = false -> rstrip (a ++ c :: t) = a ++ c :: rstrip t.
Proof.
  intros a c t H. unfold rstrip. rewrite rev_app_distr. cbn [rev]. rewrite <- app_assoc. cbn [app].
  rewrite lstrip_mid by auto. rewrite rev_app_distr. cbn [rev]. rewrite rev_involutive, <- app_assoc. reflexivity.
Qed.
Lemma blank_space : forall s, Forall blank s -> Forall (fun c => is_space c = true) s.
Proof. intros s H. eapply Forall_impl; [|exact H]. intros c [->| ->]; reflexivity. Qed.
Lemma lstrip_sub : forall s c, In c (lstrip s) -> In c s.
Proof. intros s c. induction s as [|x s IH]; cbn; [auto|]. destruct (is_space x); [intuition|auto]. Qed.
Lemma rstrip_sub : forall s c, In c (rstrip s) -> In c s.
Proof. intros s c H. unfold rstrip in H. rewrite <- in_rev in H. apply lstrip_sub in H. now apply in_rev in H. Qed.
Lemma existsb_none : forall (f : Z -> bool) l, (forall c, In c l -> f c = false) -> existsb f l = false.
Proof. induction l as [|c l IH]; intro H; [reflexivity|]. cbn. rewrite H by (now left). apply IH. intros x Hx. apply H. now right. Qed.
Lemma rstrip_pad : forall s b, rstrip s = s -> Forall (fun c => is_space c = true) b -> rstrip (s ++ b) = s.
Proof.
  intros s b E H. unfold rstrip in *. rewrite rev_app_distr, lstrip_spaces; [exact E|].
  apply Forall_forall. intros c Hc. rewrite <- in_rev in Hc. rewrite Forall_forall in H. auto.
Qed.

Section LINE.
  Variables (ci : bool) (m : list (str * Z)).
  Definition field_of (d : decl) : field := mkField (d_name d) (base_of ci (d_type d)) (d_dims d).
  Lemma match_decl : forall d sp gap es rest, In sp (spellings (d_type d)) -> Forall blank gap -> gap <> [] ->
    d_name d <> [] -> Forall letter_digit (d_name d) -> (length es <= 4)%nat ->
    Forall (fun e => e <> [] /\ Forall (fun c => dim_char c = true) e) es ->
    exists bl, Forall blank bl /\
    match_at (sp ++ gap ++ d_name d ++ concat (map (fun e => 91 :: e ++ [93]) es) ++ 59 :: rest) = Some (sp ++ bl, d_name d, es).
  Proof.
    intros d sp gap es rest Hsp Hg NEg NEn Hn Hl He.
    destruct (spelling_shape (d_type d) sp Hsp) as (T & (c0 & r0 & E0 & L0) & Len & _ & _).
    destruct (exists_last NEg) as (bl & b & ->). apply Forall_app in Hg. destruct Hg as [Hbl Hb]. assert (Hb1 : blank b) by (now inversion Hb). clear Hb.
    set (tail := concat (map (fun e => 91 :: e ++ [93]) es) ++ 59 :: rest).
    assert (ST : stops type_char tail) by (subst tail; destruct es; reflexivity).
    assert (SN : stops name_char tail) by (subst tail; destruct es; reflexivity).
    destruct (span_split is_lower (d_name d)) as (lp & nr & EN & HL & HS).
    assert (S1 : stops type_char (nr ++ tail)).
    { destruct nr as [|x nr]; [exact ST|]. cbn in HS |- *. assert (LD : letter_digit x).
      { rewrite EN in Hn. apply Forall_app in Hn. destruct Hn as [_ Hn]. now inversion Hn. }
      unfold letter_digit in LD. unfold type_char. rewrite HS. unfold is_blank. rewrite orb_false_l.
      apply orb_false_iff. split; apply Z.eqb_neq; unfold is_lower in HS; apply andb_false_iff in HS; lia. }
    exists bl. split; [auto|].
    assert (BB : forall x, blank x -> is_blank x = true /\ type_char x = true) by (intros x [-> | ->]; split; reflexivity).
    assert (RUN : span type_char (sp ++ (bl ++ [b]) ++ d_name d ++ tail) = (sp ++ bl ++ b :: lp, nr ++ tail)).
    { replace (sp ++ (bl ++ [b]) ++ d_name d ++ tail) with ((sp ++ bl ++ b :: lp) ++ (nr ++ tail))
        by (rewrite EN, <- !app_assoc; cbn [app]; rewrite <- ?app_assoc; reflexivity).
      apply span_app; [|exact S1]. apply Forall_app. split; [exact T|]. apply Forall_app. split.
      - eapply Forall_impl; [|exact Hbl]. intros x Hx. apply (BB x Hx).
      - constructor; [apply (BB b Hb1)|]. eapply Forall_impl; [|exact HL]. intros x Hx. cbn beta in Hx. unfold type_char. now rewrite Hx. }
    unfold match_at. rewrite RUN. rewrite E0 at 1. cbn [app]. rewrite L0.
    replace (sp ++ bl ++ b :: lp) with ((sp ++ bl) ++ b :: lp) by (now rewrite <- app_assoc).
    rewrite last_blank_app.
    2:{ apply (BB b Hb1). }
    2:{ eapply Forall_impl; [|exact HL]. intros x Hx. cbn beta in Hx. chr. }
    assert (L2 : 2 <=? zlen (sp ++ bl) = true).
    { apply Z.leb_le. rewrite zlen_app. pose proof (zlen_nonneg bl). lia. }
    rewrite L2. rewrite app_assoc, <- EN.
    rewrite span_app.
    - destruct (d_name d) as [|x nm]; [now contradiction NEn|]. subst tail. rewrite groups_ok; auto.
    - eapply Forall_impl; [|exact Hn]. unfold letter_digit. intros x Hx. cbn beta in Hx. chr.
    - exact SN.
  Qed.

  Lemma parse_decl : forall line o, line_says (lookup m) line o -> parse_line ci m line = Ok (option_map field_of o).
  Proof.
    intros line o H. inversion H as [s B E1 E2|ind s B NN E1 E2|d ind sp gap es tr B SP G NEG NEN NM LE DV TR E1 E2]; subst; clear H.
    - assert (E : strip line = []) by (rewrite <- (app_nil_r line), <- (app_nil_l (line ++ [])); rewrite app_nil_r;
        pose proof (strip_pad line [] [] (blank_space _ B) (Forall_nil _)) as K; rewrite !app_nil_r in K; exact K).
      unfold parse_line. rewrite E. reflexivity.
    - unfold parse_line. cbn [app]. unfold strip.
      rewrite (lstrip_spaces ind) by (now apply blank_space).
      change (lstrip (47 :: 47 :: s)) with (47 :: 47 :: s).
      pose proof (rstrip_mid [47] 47 s eq_refl) as K. cbn [app] in K. rewrite K. cbn zeta.
      destruct (existsb _ _); [reflexivity|]. reflexivity.
    - destruct (spelling_shape (d_type d) sp SP) as (T & (c0 & r0 & E0 & L0) & Len & RS & (r1 & c1 & E3 & NS)).
      set (X := sp ++ gap ++ d_name d ++ dims_text es).
      assert (ST : strip (ind ++ sp ++ gap ++ d_name d ++ dims_text es ++ [59] ++ tr) = X ++ 59 :: rstrip tr).
      { unfold strip. rewrite lstrip_spaces by (now apply blank_space). rewrite E0 at 1. cbn [app lstrip].
        assert (NS0 : is_space c0 = false) by (unfold is_space; unfold is_lower in L0; apply andb_true_iff in L0; destruct L0 as [L1 L2];
          apply Z.leb_le in L1; apply Z.leb_le in L2; repeat (apply orb_false_iff; split); try (apply andb_false_iff); try (apply Z.eqb_neq; lia); try (right; apply Z.leb_gt; lia); left; apply Z.leb_gt; lia).
        rewrite NS0. replace (c0 :: r0 ++ gap ++ d_name d ++ dims_text es ++ 59 :: tr) with (X ++ 59 :: tr)
          by (subst X; rewrite E0; cbn [app]; rewrite <- !app_assoc; reflexivity).
        now rewrite rstrip_mid. }
      assert (DC : Forall (fun e => e <> [] /\ Forall (fun c => dim_char c = true) e) (map dim_text es)).
      { clear - DV. induction DV as [|e v es vs D1 D2 IH]; constructor; auto. eapply dim_chars; eauto. }
      assert (NB : forall c, In c X -> c <> 123 /\ c <> 125).
      { intros c Hc. subst X. rewrite !in_app_iff in Hc. destruct Hc as [Hc|[Hc|[Hc|Hc]]].
        - rewrite Forall_forall in T. specialize (T _ Hc). cbn beta in T. chr.
        - rewrite Forall_forall in G. destruct (G _ Hc); lia.
        - rewrite Forall_forall in NM. specialize (NM _ Hc). unfold letter_digit in NM. lia.
        - unfold dims_text in Hc. apply in_concat in Hc. destruct Hc as (x & Hx & Hc). apply in_map_iff in Hx.
          destruct Hx as (e & <- & He). destruct Hc as [<-|Hc]; [lia|]. apply in_app_iff in Hc. destruct Hc as [Hc|[<-|[]]]; [|lia].
          rewrite Forall_forall in DC. destruct (DC (dim_text e)) as [_ F]; [now apply in_map|]. rewrite Forall_forall in F.
          specialize (F _ Hc). cbn beta in F. chr. }
      unfold parse_line. rewrite ST. cbn zeta.
      rewrite existsb_none.
      2:{ intros c Hc. apply in_app_iff in Hc. apply orb_false_iff. destruct Hc as [Hc|[<-|Hc]].
          - destruct (NB _ Hc). split; now apply Z.eqb_neq.
          - split; reflexivity.
          - apply rstrip_sub in Hc. rewrite Forall_forall in TR. destruct (TR _ Hc) as (_ & ? & ?). split; now apply Z.eqb_neq. }
      assert (SW : starts_with [47; 47] (X ++ 59 :: rstrip tr) = false).
      { subst X. rewrite E0. cbn [app starts_with]. unfold is_lower in L0. apply andb_true_iff in L0. destruct L0 as [L1 L2]. apply Z.leb_le in L1.
        destruct (47 =? c0) eqn:E; [apply Z.eqb_eq in E; lia|reflexivity]. }
      rewrite SW.
      assert (L5 : zlen (X ++ 59 :: rstrip tr) <? 5 = false).
      { apply Z.ltb_ge. subst X. rewrite !zlen_app, zlen_cons. destruct gap as [|g gap]; [now contradiction NEG|].
        rewrite (zlen_cons g gap). destruct (d_name d) as [|x nm]; [now contradiction NEN|]. rewrite (zlen_cons x nm).
        pose proof (zlen_nonneg gap). pose proof (zlen_nonneg nm). pose proof (zlen_nonneg (dims_text es)). pose proof (zlen_nonneg (rstrip tr)). lia. }
      rewrite L5.
      destruct (match_decl d sp gap (map dim_text es) (rstrip tr) SP G NEG NEN NM) as (bl & Hbl & MA); [now rewrite map_length|exact DC|].
      assert (SE : search (X ++ 59 :: rstrip tr) = Some (sp ++ bl, d_name d, map dim_text es)).
      { replace (X ++ 59 :: rstrip tr) with (sp ++ gap ++ d_name d ++ concat (map (fun e => 91 :: e ++ [93]) (map dim_text es)) ++ 59 :: rstrip tr)
          by (subst X; unfold dims_text; rewrite map_map, <- !app_assoc; reflexivity).
        remember (sp ++ gap ++ d_name d ++ concat (map (fun e => 91 :: e ++ [93]) (map dim_text es)) ++ 59 :: rstrip tr) as whole.
        destruct whole as [|w ws]; [rewrite E0 in Heqwhole; discriminate|]. cbn [search]. now rewrite MA. }
      rewrite SE. rewrite map_map.
      rewrite (opt_all_map _ _ _ es (d_dims d)).
      2:{ clear - DV. induction DV as [|e v es vs D1 D2 IH]; constructor; auto. now apply dimension_text. }
      rewrite rstrip_pad by (auto; now apply blank_space). rewrite (type_of_spelling ci (d_type d) sp SP). reflexivity.
  Qed.
  Lemma line_no_nl : forall line o, line_says (lookup m) line o -> ~ In 10 line.
  Proof.
    intros line o H IN. inversion H as [s B E1 E2|ind s B NN E1 E2|d ind sp gap es tr B SP G NEG NEN NM LE DV TR E1 E2]; subst; clear H.
    - rewrite Forall_forall in B. destruct (B _ IN); lia.
    - rewrite !in_app_iff in IN. destruct IN as [IN|[IN|IN]].
      + rewrite Forall_forall in B. destruct (B _ IN); lia.
      + cbn in IN. intuition lia.
      + rewrite Forall_forall in NN. now apply (NN _ IN).
    - rewrite !in_app_iff in IN. destruct IN as [IN|[IN|[IN|[IN|[IN|[IN|IN]]]]]].
      + rewrite Forall_forall in B. destruct (B _ IN); lia.
      + destruct (spelling_shape (d_type d) sp SP) as (T & _). rewrite Forall_forall in T. specialize (T _ IN). discriminate.
      + rewrite Forall_forall in G. destruct (G _ IN); lia.
      + rewrite Forall_forall in NM. specialize (NM _ IN). unfold letter_digit in NM. lia.
      + unfold dims_text in IN. apply in_concat in IN. destruct IN as (x & Hx & Hc). apply in_map_iff in Hx.
        destruct Hx as (e & <- & He). destruct Hc as [E|Hc]; [lia|]. apply in_app_iff in Hc. destruct Hc as [Hc|[E|[]]]; [|lia].
        assert (DC : Forall (fun e => Forall (fun c => dim_char c = true) (dim_text e)) es).
        { clear - DV. induction DV as [|e' v es vs D1 D2 IH]; constructor; auto. eapply dim_chars; eauto. }
        rewrite Forall_forall in DC. specialize (DC _ He). rewrite Forall_forall in DC. specialize (DC _ Hc). discriminate.
      + cbn in IN. intuition lia.
      + rewrite Forall_forall in TR. destruct (TR _ IN) as (? & _). auto.
  Qed.
  Lemma parse_text : forall lines os, lines <> [] -> Forall2 (line_says (lookup m)) lines os ->
    parse_lines ci m (split 10 (join 10 lines)) = Ok (map field_of (declared os)).
  Proof.
    intros lines os NE H. rewrite split_join; auto.
    - clear NE. induction H as [|l o lines os H1 H2 IH]; [reflexivity|]. cbn [parse_lines]. rewrite (parse_decl _ _ H1). cbn [bind].
      rewrite IH. cbn [bind]. destruct o as [d|]; reflexivity.
    - clear NE. induction H as [|l o lines os H1 H2 IH]; constructor; auto. eapply line_no_nl; eauto.
  Qed.
End LINE.
