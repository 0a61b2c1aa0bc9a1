(** Lines that say an entry, refused entries and attenuations. *)
From Coq Require Import Ascii String List ZArith Bool Lia Permutation Sorted.
From Verif Require Import M_Py M_Str M_Sdf P_Str M_Ssmif S_Ssmif P_Ssmif P_SsmifI P_SsmifJ P_SsmifB.
Import ListNotations.
Open Scope Z_scope.

(** *** Writing entries. *)
Definition item : Type := string * list Z * val * string.
Definition entry_i (x : item) : entry := let '(k, ids, v, _) := x in mkEntry k ids v.
Definition line_i (x : item) : str := let '(k, ids, _, t) := x in tx k ++ bracketed ids ++ [32] ++ tx t.
Definition ok_i (x : item) : bool :=
  let '(k, ids, v, t) := x in
  negb (String.eqb k "") && forallb (fun c => ((65 <=? c) && (c <=? 90)) || (c =? 95) || ((48 <=? c) && (c <=? 57))) (tx k) && (length ids <=? 3)%nat && forallb (fun i => 0 <=? i) ids &&
  match tx t with c :: _ => negb (is_space c) | [] => false end && forallb (fun c => negb (c =? 10) && negb (c =? 13) && negb (c =? 35)) (tx t) &&
  match v with NInt z => match parse_int (tx t) with Some y => y =? z | None => false end | NText s => str_eqb s (tx t) | NFloat s => str_eqb s (tx t) end.
Lemma line_i_says : forall isf x, (forall t, isf t = true) -> ok_i x = true -> line_says isf (line_i x) (Some (entry_i x)).
Proof.
  intros isf [[[k ids] v] t] IF H. cbn [ok_i line_i entry_i] in *. repeat (apply andb_true_iff in H as [H ?]).
  assert (E : tx k ++ bracketed ids ++ [32] ++ tx t = [] ++ tx k ++ bracketed ids ++ [32] ++ tx t ++ []) by (rewrite app_nil_r; reflexivity). rewrite E.
  constructor.
  - constructor.
  - split. { intro X. subst. discriminate. } rewrite Forall_forall. intros c C. match goal with X : forallb _ (tx k) = true |- _ => rewrite forallb_forall in X; specialize (X c C); cbv beta in X end.
    repeat match goal with X : _ || _ = true |- _ => apply orb_true_iff in X as [X|X] | X : _ && _ = true |- _ => apply andb_true_iff in X as [? ?] | X : (_ <=? _) = true |- _ => apply Z.leb_le in X | X : (_ =? _) = true |- _ => apply Z.eqb_eq in X end; lia.
  - match goal with X : (length ids <=? 3)%nat = true |- _ => now apply Nat.leb_le in X end.
  - rewrite Forall_forall. intros c C. match goal with X : forallb _ ids = true |- _ => rewrite forallb_forall in X; specialize (X c C); cbv beta in X; now apply Z.leb_le in X end.
  - discriminate.
  - constructor; [|constructor]. repeat split; discriminate.
  - rewrite Forall_forall. intros c C. match goal with X : forallb _ (tx t) = true |- _ => rewrite forallb_forall in X; specialize (X c C); cbv beta in X; apply andb_true_iff in X as [X _]; apply andb_true_iff in X as [X Y] end.
    unfold inline.
    repeat match goal with X : negb _ = true |- _ => apply negb_true_iff in X | X : (_ =? _) = false |- _ => apply Z.eqb_neq in X end. auto.
  - intro C. match goal with X : forallb _ (tx t) = true |- _ => rewrite forallb_forall in X; specialize (X 35 C); discriminate end.
  - destruct (tx t) as [|c r]; [discriminate|]. exists c, r. split; [reflexivity|]. match goal with X : negb (is_space c) = true |- _ => now apply negb_true_iff in X end.
  - now left.
  - destruct v as [z|s|s]; cbn [shows].
    + destruct (parse_int (tx t)) as [y|]; [|discriminate]. match goal with X : (y =? z) = true |- _ => apply Z.eqb_eq in X; now subst end.
    + match goal with X : str_eqb s (tx t) = true |- _ => destruct (str_eqb_spec s (tx t)); [now subst|discriminate] end.
    + split; [apply IF|]. match goal with X : str_eqb s (tx t) = true |- _ => destruct (str_eqb_spec s (tx t)); [now subst|discriminate] end.
Qed.
Lemma items_say : forall isf xs, (forall t, isf t = true) -> forallb ok_i xs = true -> file_says isf (map line_i xs) (map entry_i xs).
Proof.
  intros isf xs IF. induction xs as [|x xs IH]; cbn [map forallb]; intro H; [constructor|]. apply andb_true_iff in H as [A B].
  apply file_entry; [now apply line_i_says|now apply IH].
Qed.

(** *** Refused entries. *)
Lemma run_text_app : forall isf a b v, run_text isf (a ++ b) v = bind (run_text isf a v) (run_text isf b).
Proof. intros isf a. induction a as [|l a IH]; intros b v; cbn [app run_text bind]; [reflexivity|]. destruct (run_line isf l v); cbn [bind]; [apply IH|reflexivity]. Qed.
Lemma refuse : forall isf ls es l e rest x, file_says isf ls es -> well_formed [] es = true -> line_says isf l (Some e) ->
  (forall v t, Inv es v -> shows isf (e_val e) t -> run_entry isf e t v = Raise x) -> parse_ssmif isf (ls ++ l :: rest) = Raise x.
Proof.
  intros isf ls es l e rest x FS WF L H. destruct (run_file_inv isf ls es FS [] env0 inv0 WF) as (v & RV & IV). cbn [app] in IV.
  unfold parse_ssmif. rewrite run_text_app, RV. cbn [bind run_text]. destruct (run_entry_line _ _ _ L) as (t & S1 & S2). rewrite S2, (H v t IV S1). reflexivity.
Qed.
Definition int_row (r : string * (shape * ty * (Z -> Z -> Z -> val))) : bool :=
  match snd r with
  | (_, TInt, _) => match assoc (fst r) table with Some (SetVar _ CInt) | Some (Alloc _ _) | Some (Alloc2 _ _ _) | Some (Put _ CInt _) | Some (AspPut _ _ _) => true | _ => false end
  | _ => true
  end.
Lemma int_rows : forallb int_row format = true.
Proof. vm_compute. reflexivity. Qed.
Lemma entry_of_In : forall A k (l : list (string * A)) a, entry_of k l = Some a -> In (k, a) l.
Proof. intros A k l a. induction l as [|[n b] l IH]; cbn [entry_of]; [discriminate|]. destruct (String.eqb_spec k n); [intro H; injection H as ->; subst; now left|right; auto]. Qed.
Lemma bad_int : forall isf e sh d t v, entry_of (e_key e) format = Some (sh, TInt, d) -> parse_int t = None -> run_entry isf e t v = Raise ValueError.
Proof.
  intros isf e sh d t v E P. pose proof int_rows as A. rewrite forallb_forall in A. specialize (A _ (entry_of_In _ _ _ _ E)). unfold int_row in A. cbn [fst snd] in A.
  unfold run_entry. destruct (assoc (e_key e) table) as [[|x c|x a|x r a|x c p|x n|x l s]|]; try discriminate; try (destruct c; try discriminate); cbn [run_instr convert]; rewrite P; reflexivity.
Qed.
Lemma py_get_beyond : forall A n (f : Z -> A) i, n < i -> 0 < i -> py_get (i - 1) (map f (R n)) = None.
Proof.
  intros A n f i H I0. unfold py_get. destruct (py_index _ _) as [k|] eqn:E; [|reflexivity]. unfold py_index in E. rewrite map_length, R_length in E.
  revert E. repeat match goal with |- context [if ?b then _ else _] => let Q := fresh "Q" in destruct b eqn:Q end; intros; try discriminate; repeat rewrite ?andb_true_iff, ?Z.leb_le, ?Z.ltb_lt in *; lia.
Qed.
Lemma put_beyond : forall n f i v, n < i -> 0 < i -> put_path [i - 1] v (tab1 n f) = Raise IndexError.
Proof. intros. cbn [put_path tab1]. now rewrite py_get_beyond. Qed.
Lemma put_beyond2 : forall n m f i j v, 0 <= n -> 0 <= m -> n < i \/ (1 <= i /\ m < j) -> put_path [i - 1; j - 1] v (tab2 n m f) = Raise IndexError.
Proof.
  intros n m f i j v N0 M0 H. unfold tab2. change (put_path [i - 1; j - 1] v (VL ?l)) with
    (match py_get (i - 1) l with None => Raise IndexError | Some u => bind (put_path [j - 1] v u) (fun u' => match py_set (i - 1) u' l with Some l' => Ok (VL l') | None => Raise IndexError end) end).
  destruct (Z_lt_le_dec n i) as [L|L]; [now rewrite py_get_beyond by lia|]. rewrite py_get_R by lia. rewrite put_beyond by lia. reflexivity.
Qed.
Lemma each_m : forallb (fun r => 0 <=? fst (snd (snd r))) eaches = true.
Proof. reflexivity. Qed.
Lemma run_beyond : forall isf done e t v, Inv done v -> beyond done e -> shows isf (e_val e) t -> run_entry isf e t v = Raise IndexError.
Proof.
  intros isf done e t v IV (sh & ty0 & d & EK & TY & BY) SH. unfold run_entry.
  assert (KN : (exists x, In (e_key e, x) scal) \/ (exists N m x, In (e_key e, (N, (m, x))) eaches) \/ (exists N M x, In (e_key e, (N, (M, x))) grids) \/
               (exists k, In (e_key e, k) pos_keys) \/ In (e_key e) ["ARB_RACK"; "ARB_PORT"]%string).
  { pose proof all_known as A. rewrite forallb_forall in A. rewrite <- assoc_entry in EK. specialize (A _ (assoc_In _ _ _ _ EK)). cbn [fst] in A.
    apply existsb_exists in A as (k & A & E). apply String.eqb_eq in E. subst k. unfold all_keys in A. rewrite !in_app_iff, !in_map_iff in A.
    destruct A as [([k x] & E & A)|[([k (N & m & x)] & E & A)|[([k (N & M & x)] & E & A)|[([k x] & E & A)|A]]]]; try (cbn [fst] in E; subst k).
    - left. eauto. - right; left. eauto. - right; right; left. eauto. - right; right; right; left. eauto. - right; right; right; right. exact A. }
  destruct KN as [(x & I1)|[(N & m & x & I1)|[(N & M & x & I1)|[(k & I1)|I1]]]].
  - exfalso. pose proof scal_all as A. rewrite Forall_forall in A. destruct (A _ I1) as (O & sh' & ty' & d' & EK' & C). clear A. rewrite EK in EK'. injection EK' as <- <- <-.
    destruct C as [(c & TA & -> & CV)|[(arrs & TA & -> & -> & NA)|(rows & arrs & N & TA & -> & -> & NA & RI)]]; exact BY.
  - pose proof each_m as M0. rewrite forallb_forall in M0. specialize (M0 _ I1). cbn [fst snd] in M0. apply Z.leb_le in M0.
    pose proof each_all as A. rewrite Forall_forall in A. destruct (A _ I1) as (KN & O & sh' & ty' & d' & d0 & nv & arrs & init & EK' & EN & TN & AX & DF & C). clear A. rewrite EK in EK'. injection EK' as <- <- <-.
    destruct (i_each _ _ IV _ _ _ _ I1) as [_ I3].
    destruct C as [(c & TA & -> & CV)|[(TA & -> & -> & -> & RI)|(loc & src & TA & -> & -> & -> & RI & XL & NL & SS)]]; rewrite TA; cbn [run_instr].
    + destruct (e_ids e) as [|i [|? ?]] eqn:ID; try contradiction. destruct BY as (n & DN & LT). destruct (i_cnt _ _ IV _ _ EN) as [(SN & DNn)|(n0 & N0 & SN & DNn)]; [congruence|]. rewrite DNn in DN. injection DN as ->.
      rewrite (convert_ok _ _ _ _ _ CV TY SH). cbn [bind]. unfold get_var. rewrite (I3 n DNn). cbn [bind map index pad3 app firstn nth].
      rewrite put_beyond; [reflexivity|exact LT|nia].
    + destruct (e_ids e) as [|i [|? ?]] eqn:ID; try contradiction. destruct BY as (n & DN & LT). destruct (i_cnt _ _ IV _ _ EN) as [(SN & DNn)|(n0 & N0 & SN & DNn)]; [congruence|]. rewrite DNn in DN. injection DN as ->.
      cbn [pad3 app firstn nth]. replace (i =? -1) with false by (symmetry; apply Z.eqb_neq; lia).
      rewrite (convert_ok _ CFloat TFloat _ _ eq_refl TY SH). cbn [bind]. unfold get_var. rewrite (I3 n DNn). cbn [bind]. rewrite put_beyond by lia. reflexivity.
    + destruct SS as [[-> ->]| ->]; [|destruct (e_ids e); contradiction]. destruct (e_ids e) as [|i [|? ?]] eqn:ID; try contradiction. destruct BY as (n & DN & LT). destruct (i_cnt _ _ IV _ _ EN) as [(SN & DNn)|(n0 & N0 & SN & DNn)]; [congruence|]. rewrite DNn in DN. injection DN as ->.
      rewrite (convert_ok _ CInt TInt _ _ eq_refl TY SH). cbn [bind]. cbv zeta. cbn [pad3 app firstn nth].
      replace (i =? -1) with false by (symmetry; apply Z.eqb_neq; lia). unfold get_var. unfold bind_var at 1. rewrite String.eqb_refl. cbn [bind].
      unfold bind_var at 1. rewrite XL, (I3 n DNn). cbn [bind]. rewrite put_beyond by lia. reflexivity.
  - pose proof grid_all as A. rewrite Forall_forall in A. destruct (A _ I1) as (KM & KN & MN & O & ty' & c & d' & d0 & nv & rows & arrs & init & EK' & EM & (dn & EN) & TA & CV & TM & RI & AX & DF). clear A.
    rewrite EK in EK'. injection EK' as -> <- <-. destruct (i_grid _ _ IV _ _ _ _ I1) as [_ I3]. rewrite TA. cbn [run_instr].
    destruct (e_ids e) as [|i [|j [|? ?]]] eqn:ID; try contradiction. destruct BY as (n & m & DN & DM & LT).
    destruct (i_cnt _ _ IV _ _ EN) as [(SN & DNn)|(n0 & N0 & SN & DNn)]; [congruence|]. rewrite DNn in DN. injection DN as ->.
    destruct (i_cntin _ _ IV _ _ _ EM) as [(SM & DMm)|(n1 & m0 & M0 & SM & DMm & _)]; [congruence|]. rewrite DMm in DM. injection DM as ->.
    rewrite (convert_ok _ _ _ _ _ CV TY SH). cbn [bind]. unfold get_var. rewrite (I3 n m DNn DMm). cbn [bind map index pad3 app firstn nth].
    rewrite put_beyond2 by assumption. reflexivity.
  - pose proof pos_pos as A. rewrite Forall_forall in A. destruct (A _ I1) as [TA EF]. clear A. cbn [fst snd] in *. rewrite EK in EF. injection EF as -> -> ->. rewrite TA. cbn [run_instr].
    destruct (e_ids e) as [|i [|? ?]] eqn:ID; try contradiction. destruct BY as (n & DN & LT). destruct (i_cnt _ _ IV "N_STD" no_default eq_refl) as [(SN & DNn)|(n0 & N0 & SN & DNn)]; [congruence|]. assert (n0 = n) by congruence. subst n0.
    rewrite (convert_ok _ CFloat TFloat _ _ eq_refl TY SH). cbn [bind]. unfold get_var. rewrite (proj2 (i_pos _ _ IV) n DN). cbn [bind map index pad3 app firstn nth].
    change (put_path [i - 1; k] (pvof (e_val e)) (VL ?l)) with
      (match py_get (i - 1) l with None => Raise IndexError | Some u => bind (put_path [k] (pvof (e_val e)) u) (fun u' => match py_set (i - 1) u' l with Some l' => Ok (VL l') | None => Raise IndexError end) end).
    rewrite py_get_beyond by lia. reflexivity.
  - assert (TA : assoc (e_key e) table = Some (Put "arxRack" CInt [PId 0]) /\ entry_of (e_key e) format = Some (Each "N_ARB" 1, TInt, i_ 0)).
    { destruct I1 as [X|[X|[]]]; rewrite <- X; split; reflexivity. }
    destruct TA as [TA EF]. rewrite EK in EF. injection EF as -> -> ->. rewrite TA. cbn [run_instr].
    destruct (e_ids e) as [|i [|? ?]] eqn:ID; try contradiction. destruct BY as (n & DN & LT). destruct (i_cnt _ _ IV "N_ARB" no_default eq_refl) as [(SN & DNn)|(n0 & N0 & SN & DNn)]; [congruence|]. assert (n0 = n) by congruence. subst n0.
    rewrite (convert_ok _ CInt TInt _ _ eq_refl TY SH). cbn [bind]. unfold get_var. destruct (i_rack _ _ IV n DN) as [f ->]. cbn [bind map index pad3 app firstn nth].
    rewrite put_beyond by lia. reflexivity.
Qed.

(** *** Attenuations. *)
Lemma fold_min_le : forall l a, fold_left Z.min l a <= a /\ forall x, In x l -> fold_left Z.min l a <= x.
Proof.
  induction l as [|y l IH]; intro a; cbn [fold_left]; [split; [lia|intros x []]|]. destruct (IH (Z.min a y)) as [A B]. split; [lia|]. intros x [->|X]; [lia|now apply B].
Qed.
Lemma fold_min_in : forall l a, fold_left Z.min l a = a \/ In (fold_left Z.min l a) l.
Proof.
  induction l as [|y l IH]; intro a; cbn [fold_left]; [now left|]. destruct (IH (Z.min a y)) as [A|A]; [|right; now right]. rewrite A. destruct (Z.min_spec a y) as [[_ ->]|[_ ->]]; [now left|right; now left].
Qed.
Lemma py_min_least : forall es k m, py_min (map (fun s => int_at es k [s]) (R (num es "N_STD"))) = Ok m -> least es k m.
Proof.
  intros es k m H. set (n := num es "N_STD") in *. assert (G : In m (map (fun s => int_at es k [s]) (R n)) /\ forall x, In x (map (fun s => int_at es k [s]) (R n)) -> m <= x).
  { destruct (map _ (R n)) as [|x r]; [discriminate|]. cbn [py_min] in H. injection H as <-. destruct (fold_min_le r x) as [A B]. split; [destruct (fold_min_in r x) as [E|E]; [left; now rewrite E|now right]|]. intros y [<-|Y]; [exact A|now apply B]. }
  destruct G as [G1 G2]. apply in_map_iff in G1 as (s & E & SI). apply R_In in SI. split; [exists s; split; [exact SI|exact E]|].
  intros s' S'. apply G2. apply in_map_iff. exists s'. split; [reflexivity|now apply R_In].
Qed.
