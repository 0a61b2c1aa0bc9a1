(** The reader's invariant holds through the whole file, and no entry of a well-formed file makes it fail. *)
From Coq Require Import Ascii String List ZArith Bool Lia.
From Verif Require Import M_Py M_Str M_Sdf P_Str M_Ssmif S_Ssmif P_Ssmif P_SsmifI.
Import ListNotations.
Open Scope Z_scope.

Definition pos_keys : list (string * Z) := [("STD_LX", 0); ("STD_LY", 1); ("STD_LZ", 2)]%string.
Lemma pos_pos : Forall (fun r => assoc (fst r) table = Some (Put "stdPos" CFloat [PId 0; PConst (snd r)]) /\
  entry_of (fst r) format = Some (Each "N_STD" 1, TFloat, f_ "0.0")) pos_keys.
Proof. repeat constructor. Qed.
Lemma put_pos : forall n (f g h : Z -> pv) i a k, 1 <= i <= n -> 0 <= k <= 2 ->
  put_path [i - 1; k] a (VL (map (fun x => VL [f x; g x; h x]) (R n))) =
  Ok (VL (map (fun x => VL [if (x =? i) && (k =? 0) then a else f x; if (x =? i) && (k =? 1) then a else g x; if (x =? i) && (k =? 2) then a else h x]) (R n))).
Proof.
  intros n f g h i a k H K. change (put_path [i - 1; k] a (VL ?l)) with
    (match py_get (i - 1) l with None => Raise IndexError | Some u => bind (put_path [k] a u) (fun u' => match py_set (i - 1) u' l with Some l' => Ok (VL l') | None => Raise IndexError end) end).
  rewrite py_get_R by assumption.
  assert (C : k = 0 \/ k = 1 \/ k = 2) by lia.
  assert (P : put_path [k] a (VL [f i; g i; h i]) = Ok (VL [if k =? 0 then a else f i; if k =? 1 then a else g i; if k =? 2 then a else h i]))
    by (destruct C as [->|[->| ->]]; reflexivity).
  rewrite P. cbn [bind]. rewrite py_set_R by assumption. do 2 f_equal. apply map_ext. intro x. destruct (Z.eqb_spec x i); subst; reflexivity.
Qed.

Definition all_keys : list string := map fst scal ++ map fst eaches ++ map fst grids ++ map fst pos_keys ++ ["ARB_RACK"; "ARB_PORT"]%string.
Lemma all_known : forallb (fun r => existsb (String.eqb (fst r)) all_keys) format = true.
Proof. vm_compute. reflexivity. Qed.
Lemma versions : forallb (fun r => match entry_of (fst r) format with Some _ => true | None => String.eqb (fst r) "FORMAT_VERSION" && match snd r with Version => true | _ => false end end) table = true.
Proof. vm_compute. reflexivity. Qed.

Section Step.
  Variable isf : str -> bool.
  Variables (done : list entry) (e : entry) (t : str) (v v' : env).
  Hypothesis IV : Inv done v.
  Hypothesis FT : fits done e = true.
  Hypothesis SH : shows isf (e_val e) t.

  Lemma run_ok : exists w, run_entry isf e t v = Ok w.
  Proof.
    unfold run_entry. destruct (entry_of (e_key e) format) as [[[sh ty0] d]|] eqn:EK.
    2:{ destruct (assoc (e_key e) table) as [i|] eqn:TA; [|eexists; reflexivity].
        assert (V : e_key e = "FORMAT_VERSION"%string /\ i = Version).
        { pose proof versions as A. rewrite forallb_forall in A. specialize (A _ (assoc_In _ _ _ _ TA)). cbn [fst snd] in A. rewrite EK in A.
          apply andb_true_iff in A as [A1 A2]. apply String.eqb_eq in A1. split; [exact A1|]. destruct i; try discriminate. reflexivity. }
        destruct V as [V ->]. unfold fits in FT. rewrite V in FT. cbn [String.eqb Ascii.eqb Bool.eqb] in FT. destruct (e_val e) as [z| |]; try discriminate.
        cbn [shows] in SH. cbn [run_instr]. rewrite SH. destruct (Z.eqb_spec z 10); [eexists; reflexivity|]. exfalso. destruct z as [|p|p]; try discriminate. repeat (destruct p as [p|p|]; try discriminate). now apply n. }
    destruct (fits_row _ _ _ _ _ FT EK) as [TY FR].
    assert (KN : (exists x, In (e_key e, x) scal) \/ (exists N m x, In (e_key e, (N, (m, x))) eaches) \/ (exists N M x, In (e_key e, (N, (M, x))) grids) \/
                 (exists k, In (e_key e, k) pos_keys) \/ In (e_key e) ["ARB_RACK"; "ARB_PORT"]%string).
    { pose proof all_known as A. rewrite forallb_forall in A. rewrite <- assoc_entry in EK. specialize (A _ (assoc_In _ _ _ _ EK)). cbn [fst] in A.
      apply existsb_exists in A as (k & A & E). apply String.eqb_eq in E. subst k. unfold all_keys in A. rewrite !in_app_iff, !in_map_iff in A.
      destruct A as [([k x] & E & A)|[([k (N & m & x)] & E & A)|[([k (N & M & x)] & E & A)|[([k x] & E & A)|A]]]]; try (cbn [fst] in E; subst k).
      - left. eauto. - right; left. eauto. - right; right; left. eauto. - right; right; right; left. eauto. - right; right; right; right. exact A. }
    destruct KN as [(x & I1)|[(N & m & x & I1)|[(N & M & x & I1)|[(k & I1)|I1]]]].
    - pose proof scal_all as A. rewrite Forall_forall in A. destruct (A _ I1) as (O & sh' & ty' & d' & EK' & C). clear A. rewrite EK in EK'. injection EK' as <- <- <-.
      destruct C as [(c & TA & -> & CV)|[(arrs & TA & -> & -> & NA)|(rows & arrs & N & TA & -> & -> & NA & RI)]]; rewrite TA; cbn [run_instr].
      + rewrite (convert_ok _ _ _ _ _ CV TY SH). eexists; reflexivity.
      + destruct (typed_int _ TY) as [z EZ]. rewrite EZ in SH. cbn [shows] in SH. rewrite SH. eexists; reflexivity.
      + destruct (typed_int _ TY) as [z EZ]. rewrite EZ in SH. cbn [shows] in SH. rewrite SH. unfold get_var.
        rewrite (i_scal _ _ IV _ _ RI). destruct (e_ids e); [|discriminate]. rewrite EZ in FR. destruct (said done (e_key e) []); [discriminate|].
        unfold declared in FR. destruct (said done N []); [|discriminate]. eexists; reflexivity.
    - pose proof each_all as A. rewrite Forall_forall in A. destruct (A _ I1) as (KN & O & sh' & ty' & d' & d0 & nv & arrs & init & EK' & EN & TN & AX & DF & C). clear A. rewrite EK in EK'. injection EK' as <- <- <-.
      destruct (i_each _ _ IV _ _ _ _ I1) as [_ I3].
      destruct (i_cnt _ _ IV _ _ EN) as [(SN & DNn)|(n0 & N0 & SN & DNn)].
      { exfalso. destruct C as [(? & _ & -> & _)|[(_ & -> & _)|(? & ? & _ & _ & _ & _ & _ & _ & _ & [[_ ->]| ->])]]; rewrite DNn in FR; destruct (e_ids e) as [|? [|? ?]]; discriminate. }
      specialize (I3 n0 DNn).
      destruct C as [(c & TA & -> & CV)|[(TA & -> & -> & -> & RI)|(loc & src & TA & -> & -> & -> & RI & XL & NL & SS)]]; rewrite TA; cbn [run_instr].
      + destruct (e_ids e) as [|i [|? ?]] eqn:ID; try discriminate. rewrite DNn in FR. apply within_le in FR.
        rewrite (convert_ok _ _ _ _ _ CV TY SH). cbn [bind]. unfold get_var. rewrite I3. cbn [bind map index pad3 app firstn nth].
        rewrite put1 by exact FR. eexists; reflexivity.
      + destruct (e_ids e) as [|i [|? ?]] eqn:ID; try discriminate.
        * cbn [pad3 app firstn nth Z.eqb]. unfold get_var. rewrite (i_scal _ _ IV _ _ RI), SN. cbn [option_map bind]. destruct (_ <=? 0); [eexists; reflexivity|].
          rewrite (convert_ok _ CFloat TFloat _ _ eq_refl TY SH). eexists; reflexivity.
        * rewrite DNn in FR. apply within_le in FR. cbn [pad3 app firstn nth]. replace (i =? -1) with false by (symmetry; apply Z.eqb_neq; lia).
          rewrite (convert_ok _ CFloat TFloat _ _ eq_refl TY SH). cbn [bind]. unfold get_var. rewrite I3. cbn [bind]. rewrite put1 by lia. eexists; reflexivity.
      + assert (NV : v "nStand"%string = Some (VI n0)) by (rewrite (i_scal _ _ IV _ _ RI), SN; reflexivity).
        rewrite (convert_ok _ CInt TInt _ _ eq_refl TY SH). cbn [bind]. cbv zeta.
        assert (ID : e_ids e = [] \/ exists i, e_ids e = [i] /\ src = loc /\ 1 <= i <= n0).
        { destruct SS as [[-> ->]| ->]; destruct (e_ids e) as [|i [|? ?]]; try discriminate; [now left| |now left]. right. exists i. rewrite DNn in FR. apply within_le in FR. auto. }
        destruct ID as [ID|(i & ID & -> & RG)]; rewrite ID; cbn [pad3 app firstn nth].
        * cbn [Z.eqb]. unfold get_var. unfold bind_var at 1. rewrite NL, NV. eexists; reflexivity.
        * replace (i =? -1) with false by (symmetry; apply Z.eqb_neq; lia). unfold get_var. unfold bind_var at 1. rewrite String.eqb_refl. cbn [bind].
          unfold bind_var at 1. rewrite XL, I3. cbn [bind]. rewrite put1 by lia. eexists; reflexivity.
    - pose proof grid_all as A. rewrite Forall_forall in A. destruct (A _ I1) as (KM & KN & MN & O & ty' & c & d' & d0 & nv & rows & arrs & init & EK' & EM & (dn & EN) & TA & CV & TM & RI & AX & DF). clear A.
      rewrite EK in EK'. injection EK' as -> <- <-. destruct (i_grid _ _ IV _ _ _ _ I1) as [_ I3]. rewrite TA. cbn [run_instr].
      destruct (e_ids e) as [|i [|j [|? ?]]] eqn:ID; try discriminate. destruct (declared done N) as [n|] eqn:DN; [|discriminate]. destruct (declared done M) as [m|] eqn:DM; [|discriminate].
      apply andb_true_iff in FR as [F1 F2]. apply within_le in F1, F2. rewrite (convert_ok _ _ _ _ _ CV TY SH). cbn [bind]. unfold get_var. rewrite (I3 n m eq_refl eq_refl). cbn [bind map index pad3 app firstn nth].
      rewrite put2 by assumption. eexists; reflexivity.
    - pose proof pos_pos as A. rewrite Forall_forall in A. destruct (A _ I1) as [TA EF]. clear A. cbn [fst snd] in *. rewrite EK in EF. injection EF as -> -> ->. rewrite TA. cbn [run_instr].
      destruct (e_ids e) as [|i [|? ?]] eqn:ID; try discriminate. destruct (declared done "N_STD") as [n|] eqn:DN; [|discriminate]. apply within_le in FR.
      rewrite (convert_ok _ CFloat TFloat _ _ eq_refl TY SH). cbn [bind]. unfold get_var. rewrite (proj2 (i_pos _ _ IV) n DN). cbn [bind map index pad3 app firstn nth].
      rewrite put_pos; [eexists; reflexivity|lia|]. destruct I1 as [X|[X|[X|[]]]]; injection X as _ <-; lia.
    - assert (TA : assoc (e_key e) table = Some (Put "arxRack" CInt [PId 0]) /\ entry_of (e_key e) format = Some (Each "N_ARB" 1, TInt, i_ 0)).
      { destruct I1 as [X|[X|[]]]; rewrite <- X; split; reflexivity. }
      destruct TA as [TA EF]. rewrite EK in EF. injection EF as -> -> ->. rewrite TA. cbn [run_instr].
      destruct (e_ids e) as [|i [|? ?]] eqn:ID; try discriminate. destruct (declared done "N_ARB") as [n|] eqn:DN; [|discriminate]. apply within_le in FR.
      rewrite (convert_ok _ CInt TInt _ _ eq_refl TY SH). cbn [bind]. unfold get_var. destruct (i_rack _ _ IV n DN) as [f ->]. cbn [bind map index pad3 app firstn nth].
      rewrite put1 by lia. eexists; reflexivity.
  Qed.

  Hypothesis RUN : run_entry isf e t v = Ok v'.

  Lemma step_cnt : forall N d, entry_of N format = Some (Count, TInt, d) ->
    (said (done ++ [e]) N [] = None /\ declared (done ++ [e]) N = None) \/ exists n, 0 <= n /\ said (done ++ [e]) N [] = Some (NInt n) /\ declared (done ++ [e]) N = Some n.
  Proof.
    intros N d EN. destruct (String.eqb_spec (e_key e) N) as [E|E].
    - rewrite <- E in EN. destruct (fits_row _ _ _ _ _ FT EN) as [TY FR]. destruct (typed_int _ TY) as [z EZ]. destruct (e_ids e) eqn:ID; [|discriminate].
      rewrite EZ in FR. destruct (said done (e_key e) []); [discriminate|]. apply Z.leb_le in FR. right. exists z. split; [exact FR|].
      rewrite <- E, (declared_new done e z ID EZ), said_snoc, (about_all _ [] e eq_refl ID), EZ. auto.
    - rewrite said_other, declared_other by exact E. now apply (i_cnt _ _ IV N d).
  Qed.
  Lemma step_cntin : forall M N d, entry_of M format = Some (CountIn N, TInt, d) -> (said (done ++ [e]) M [] = None /\ declared (done ++ [e]) M = None) \/
    exists n m, 0 <= m /\ said (done ++ [e]) M [] = Some (NInt m) /\ declared (done ++ [e]) M = Some m /\ declared (done ++ [e]) N = Some n.
  Proof.
    intros M N d EM.
    assert (NC : exists dn, entry_of N format = Some (Count, TInt, dn)).
    { rewrite <- assoc_entry in EM. apply assoc_In in EM. unfold format in EM. cbn [In] in EM.
      repeat (destruct EM as [EM|EM]; [first [discriminate EM | injection EM as _ <- _; eexists; reflexivity]|]). destruct EM. }
    destruct NC as [dn EN].
    destruct (String.eqb_spec (e_key e) M) as [E|E].
    - rewrite <- E in EM. destruct (fits_row _ _ _ _ _ FT EM) as [TY FR]. destruct (typed_int _ TY) as [z EZ]. destruct (e_ids e) eqn:ID; [|discriminate].
      rewrite EZ in FR. destruct (said done (e_key e) []); [discriminate|]. destruct (declared done N) as [n|] eqn:DN; [|discriminate]. apply Z.leb_le in FR. right. exists n, z. split; [exact FR|].
      rewrite <- E, (declared_new done e z ID EZ), said_snoc, (about_all _ [] e eq_refl ID), EZ. rewrite declared_other, DN; [auto|]. intro X. rewrite X in EM. rewrite EM in EN. discriminate.
    - rewrite said_other, declared_other by exact E. destruct (i_cntin _ _ IV _ _ _ EM) as [?|(n & m & H1 & H2 & H3 & H4)]; [now left|]. right.
      destruct (String.eqb_spec (e_key e) N) as [E2|E2]; [|exists n, m; rewrite declared_other by exact E2; auto].
      exfalso. rewrite <- E2 in EN, H4. destruct (fits_row _ _ _ _ _ FT EN) as [TY FR]. destruct (typed_int _ TY) as [z EZ]. destruct (e_ids e) eqn:ID; [|discriminate]. rewrite EZ in FR.
      unfold declared in H4. destruct (said done (e_key e) []); discriminate.
  Qed.
  Lemma step_rack : forall n, declared (done ++ [e]) "N_ARB" = Some n -> exists f, v' "arxRack"%string = Some (tab1 n f).
  Proof.
    intros n DN. destruct (String.eqb_spec (e_key e) "N_ARB") as [E|E].
    - unfold run_entry in RUN. rewrite E in RUN. cbn [assoc table String.eqb Ascii.eqb Bool.eqb run_instr] in RUN.
      assert (EN : entry_of (e_key e) format = Some (Count, TInt, no_default)) by (rewrite E; reflexivity).
      destruct (fits_row _ _ _ _ _ FT EN) as [TY FR]. destruct (typed_int _ TY) as [z EZ]. destruct (e_ids e) eqn:ID; [|discriminate]. rewrite <- E, (declared_new done e z ID EZ) in DN. injection DN as <-.
      rewrite EZ in SH. cbn [shows] in SH. rewrite SH in RUN. injection RUN as <-. exists (fun _ => VI 0). cbn [assoc String.eqb Ascii.eqb Bool.eqb k_]. unfold tab1. do 2 f_equal. rewrite Z.mul_1_l. apply zr_R.
    - rewrite declared_other in DN by exact E. destruct (i_rack _ _ IV n DN) as [f F].
      destruct (in_dec string_dec (e_key e) ["ARB_RACK"; "ARB_PORT"; "N_ARB"]%string) as [IN|NI].
      2:{ exists f. rewrite (keep isf e t v v' RUN _ ["ARB_RACK"; "ARB_PORT"; "N_ARB"]%string) by (first [vm_compute; reflexivity | exact NI]). exact F. }
      assert (TA : assoc (e_key e) table = Some (Put "arxRack" CInt [PId 0]) /\ entry_of (e_key e) format = Some (Each "N_ARB" 1, TInt, i_ 0)).
      { destruct IN as [X|[X|[X|[]]]]; [rewrite <- X; split; reflexivity|rewrite <- X; split; reflexivity|congruence]. }
      destruct TA as [TA EF]. destruct (fits_row _ _ _ _ _ FT EF) as [TY FR]. destruct (e_ids e) as [|i [|? ?]] eqn:ID; try discriminate. rewrite DN in FR. apply within_le in FR.
      unfold run_entry in RUN. rewrite TA in RUN. cbn [run_instr] in RUN. rewrite (convert_ok _ CInt TInt _ _ eq_refl TY SH) in RUN. cbn [bind] in RUN. unfold get_var in RUN. rewrite F, ID in RUN. cbn [bind map index pad3 app firstn nth] in RUN.
      rewrite put1 in RUN by lia. cbn [bind] in RUN. injection RUN as <-. eexists. unfold bind_var. cbn [String.eqb Ascii.eqb Bool.eqb]. reflexivity.
  Qed.
  Lemma step_grid : forall K N M x, In (K, (N, (M, x))) grids -> (said (done ++ [e]) M [] = None -> forall idx, said (done ++ [e]) K idx = None) /\
    forall n m, declared (done ++ [e]) N = Some n -> declared (done ++ [e]) M = Some m -> v' x = Some (tab2 n m (fun i j => pvof (value (done ++ [e]) K [i; j]))).
  Proof.
    intros K N M x I1. pose proof grid_all as A. rewrite Forall_forall in A. destruct (A _ I1) as (KM & KN & MN & O & ty' & c & d' & d0 & nv & rows & arrs & init & EK & EM & (dn & EN) & TA & CV & TM & RI & AX & DF). clear A.
    apply String.eqb_neq in KM, KN, MN. destruct (i_grid _ _ IV _ _ _ _ I1) as [I2 I3].
    destruct (String.eqb_spec (e_key e) M) as [E|E].
    - pose proof EM as EM0. rewrite <- E in EM0, TM. destruct (fits_row _ _ _ _ _ FT EM0) as [TY FR]. unfold run_entry in RUN. rewrite TM in RUN. cbn [run_instr] in RUN.
      destruct (typed_int _ TY) as [z EZ]. destruct (e_ids e) eqn:ID; [|discriminate]. rewrite EZ in FR, SH. cbn [shows] in SH. rewrite SH in RUN.
      destruct (said done (e_key e) []) eqn:SD; [discriminate|]. rewrite E in SD.
      split; [intro H; rewrite said_snoc, (about_all M [] e E ID) in H; discriminate|].
      intros n m DN DM. rewrite declared_other in DN by congruence. rewrite <- E in DM. rewrite (declared_new done e z ID EZ) in DM. injection DM as <-.
      assert (RV : v rows = Some (VI n)). { rewrite (i_scal _ _ IV _ _ RI). unfold declared in DN. destruct (said done N []) as [[q| |]|]; try discriminate. injection DN as ->. reflexivity. }
      unfold get_var in RUN. rewrite RV in RUN. cbn [bind as_int] in RUN. injection RUN as <-. rewrite AX. unfold tab2, tab1. do 2 f_equal. rewrite zr_R. apply map_ext_in. intros i II. apply R_In in II. f_equal. rewrite zr_R. apply map_ext_in. intros j JJ. apply R_In in JJ.
      rewrite DF by lia. replace (i - 1 + 1) with i by lia. replace (j - 1 + 1) with j by lia. f_equal. symmetry.
      rewrite (value_default _ _ _ _ _ _ (eq_trans (said_other done e K [i; j] ltac:(congruence)) (I2 SD [i; j])) EK). cbn [nth]. unfold num. rewrite <- E, (declared_new done e z ID EZ). reflexivity.
    - rewrite (said_other done e M) by exact E. rewrite (declared_other done e M) by exact E.
      assert (ND : forall n m, declared (done ++ [e]) N = Some n -> declared done M = Some m -> declared done N = Some n).
      { intros n m DN DM. destruct (i_cntin _ _ IV _ _ _ EM) as [[_ X]|(n1 & m1 & _ & _ & _ & DN1)]; [congruence|].
        destruct (String.eqb_spec (e_key e) N) as [E2|E2]; [|now rewrite declared_other in DN by exact E2]. exfalso.
        rewrite <- E2 in EN, DN1. destruct (fits_row _ _ _ _ _ FT EN) as [TY FR]. destruct (typed_int _ TY) as [z EZ]. destruct (e_ids e) eqn:ID; [|discriminate]. rewrite EZ in FR.
        unfold declared in DN1. destruct (said done (e_key e) []); discriminate. }
      destruct (String.eqb_spec (e_key e) K) as [EQ|EQ].
      2:{ rewrite (keep isf e t v v' RUN x [K; M] O) by (intros [X|[X|[]]]; congruence). split; [intros H idx; rewrite said_other by exact EQ; now apply I2|].
          intros n m DN DM. rewrite (I3 n m (ND _ _ DN DM) DM). f_equal. apply tab2_ext. intros i j _ _. f_equal. symmetry. eapply value_same; [exact EK|now apply about_no|exact E]. }
      pose proof EK as EK0. rewrite <- EQ in EK0. destruct (fits_row _ _ _ _ _ FT EK0) as [TY FR]. destruct (e_ids e) as [|i [|j [|? ?]]] eqn:ID; try discriminate.
      destruct (declared done N) as [n|] eqn:DN; [|discriminate]. destruct (declared done M) as [m|] eqn:DM; [|discriminate]. apply andb_true_iff in FR as [F1 F2]. apply within_le in F1, F2.
      split; [intro H; unfold declared in DM; now rewrite H in DM|]. intros n2 m2 DN2 DM2. injection DM2 as <-. pose proof (ND _ _ DN2 eq_refl) as X. injection X as <-.
      unfold run_entry in RUN. rewrite EQ, TA in RUN. cbn [run_instr] in RUN. rewrite (convert_ok _ _ _ _ _ CV TY SH) in RUN. cbn [bind] in RUN. unfold get_var in RUN. rewrite (I3 n m eq_refl eq_refl), ID in RUN. cbn [bind map index pad3 app firstn nth] in RUN.
      rewrite put2 in RUN by assumption. cbn [bind] in RUN. injection RUN as <-. unfold bind_var. rewrite String.eqb_refl. f_equal. apply tab2_ext. intros a b _ _.
      destruct ((a =? i) && (b =? j)) eqn:AB.
      + rewrite value_new; [reflexivity|]. now rewrite (about2 K a b i j e EQ ID).
      + f_equal. symmetry. eapply value_same; [exact EK| |exact E]. now rewrite (about2 K a b i j e EQ ID).
  Qed.
  Lemma step_pos : (said (done ++ [e]) "N_STD" [] = None -> forall K idx, In K ["STD_LX"; "STD_LY"; "STD_LZ"]%string -> said (done ++ [e]) K idx = None) /\
    forall n, declared (done ++ [e]) "N_STD" = Some n -> v' "stdPos"%string = Some (VL (map (fun i =>
      VL [pvof (value (done ++ [e]) "STD_LX" [i]); pvof (value (done ++ [e]) "STD_LY" [i]); pvof (value (done ++ [e]) "STD_LZ" [i])]) (R n))).
  Proof.
    destruct (i_pos _ _ IV) as [I2 I3].
    assert (EF : forall K, In K ["STD_LX"; "STD_LY"; "STD_LZ"]%string -> entry_of K format = Some (Each "N_STD" 1, TFloat, f_ "0.0")) by (intros K [<-|[<-|[<-|[]]]]; reflexivity).
    assert (I1 : forall a b c : string, In a [a; b; c]) by (intros; now left). 
    destruct (String.eqb_spec (e_key e) "N_STD") as [E|E].
    - assert (EN : entry_of (e_key e) format = Some (Count, TInt, no_default)) by (rewrite E; reflexivity).
      destruct (fits_row _ _ _ _ _ FT EN) as [TY FR]. destruct (typed_int _ TY) as [z EZ]. destruct (e_ids e) eqn:ID; [|discriminate]. rewrite EZ in FR. destruct (said done (e_key e) []) eqn:SD; [discriminate|]. rewrite E in SD.
      split; [intro H; rewrite said_snoc, (about_all _ [] e E ID) in H; discriminate|]. intros n DN. rewrite <- E, (declared_new done e z ID EZ) in DN. injection DN as <-.
      unfold run_entry in RUN. rewrite E in RUN. cbn [assoc table String.eqb Ascii.eqb Bool.eqb run_instr] in RUN. rewrite EZ in SH. cbn [shows] in SH. rewrite SH in RUN. injection RUN as <-.
      cbn [assoc String.eqb Ascii.eqb Bool.eqb]. do 2 f_equal. rewrite Z.mul_1_l, zr_R. apply map_ext. intro i.
      assert (VD : forall K, In K ["STD_LX"; "STD_LY"; "STD_LZ"]%string -> pvof (value (done ++ [e]) K [i]) = z0).
      { intros K KI. rewrite (value_default _ _ _ _ _ _ (eq_trans (said_other done e K [i] ltac:(intro X; rewrite <- X, E in KI; cbn in KI; intuition discriminate)) (I2 SD K [i] KI)) (EF K KI)). reflexivity. }
      rewrite !VD by (cbn; auto). reflexivity.
    - rewrite said_other, declared_other by exact E. destruct (in_dec string_dec (e_key e) ["STD_LX"; "STD_LY"; "STD_LZ"]%string) as [IN|NI].
      + pose proof (EF _ IN) as EF0. destruct (fits_row _ _ _ _ _ FT EF0) as [TY FR]. destruct (e_ids e) as [|i [|? ?]] eqn:ID; try discriminate. destruct (declared done "N_STD") as [n|] eqn:DN; [|discriminate]. apply within_le in FR.
        split; [intro H; unfold declared in DN; now rewrite H in DN|]. intros n' X. injection X as <-. specialize (I3 n eq_refl).
        assert (PK : exists k, In (e_key e, k) pos_keys) by (destruct IN as [X|[X|[X|[]]]]; rewrite <- X; eexists; in_list). destruct PK as [k PK].
        pose proof pos_pos as A. rewrite Forall_forall in A. destruct (A _ PK) as [TA _]. clear A. cbn [fst snd] in TA.
        unfold run_entry in RUN. rewrite TA in RUN. cbn [run_instr] in RUN. rewrite (convert_ok _ CFloat TFloat _ _ eq_refl TY SH) in RUN. cbn [bind] in RUN. unfold get_var in RUN. rewrite I3, ID in RUN. cbn [bind map index pad3 app firstn nth] in RUN.
        rewrite put_pos in RUN; [|lia|destruct PK as [X|[X|[X|[]]]]; injection X as _ <-; lia]. cbn [bind] in RUN. injection RUN as <-. unfold bind_var. cbn [String.eqb Ascii.eqb Bool.eqb]. do 2 f_equal. apply map_ext. intro x.
        assert (VO : forall K, In K ["STD_LX"; "STD_LY"; "STD_LZ"]%string -> pvof (value (done ++ [e]) K [x]) = if String.eqb (e_key e) K && (x =? i) then pvof (e_val e) else pvof (value done K [x])).
        { intros K KI. destruct (String.eqb_spec (e_key e) K) as [EQ|EQ]; cbn [andb].
          - destruct (Z.eqb_spec x i) as [->|NE]; [rewrite value_new; [reflexivity|]; rewrite (about1 K i i e EQ ID); apply Z.eqb_refl|].
            f_equal. eapply value_same; [exact (EF K KI)| |exact I]. rewrite (about1 K x i e EQ ID). now apply Z.eqb_neq.
          - f_equal. eapply value_same; [exact (EF K KI)|now apply about_no|exact I]. }
        rewrite !VO by (cbn; auto). destruct PK as [X|[X|[X|[]]]]; injection X as <- <-; cbn [String.eqb Ascii.eqb Bool.eqb andb Z.eqb Pos.eqb]; destruct (x =? i); reflexivity.
      + rewrite (keep isf e t v v' RUN "stdPos" ["STD_LX"; "STD_LY"; "STD_LZ"; "N_STD"]%string) by (first [vm_compute; reflexivity | intros [X|[X|[X|[X|[]]]]]; first [congruence | apply NI; cbn; auto]]).
        split; [intros H K idx KI; rewrite said_other; [now apply I2|intro X; subst K; contradiction]|]. intros n DN. rewrite (I3 n DN). do 2 f_equal. apply map_ext. intro x.
        assert (VO : forall K, In K ["STD_LX"; "STD_LY"; "STD_LZ"]%string -> value (done ++ [e]) K [x] = value done K [x]).
        { intros K KI. eapply value_same; [exact (EF K KI)|apply about_no; intro X; subst K; contradiction|exact I]. }
        rewrite !VO by (cbn; auto). reflexivity.
  Qed.
  Lemma step_inv : Inv (done ++ [e]) v'.
  Proof.
    constructor.
    - intros. now apply (step_scal isf done e t v v').
    - intros. now apply (step_each isf done e t v v').
    - exact step_grid.
    - exact step_pos.
    - exact step_rack.
    - exact step_cnt.
    - exact step_cntin.
  Qed.
End Step.

Lemma inv0 : Inv [] env0.
Proof.
  constructor; intros; try (split; intros; try reflexivity; try discriminate); try discriminate; try reflexivity; left; split; reflexivity.
Qed.
Lemma run_entry_line : forall isf l e, line_says isf l (Some e) -> exists t, shows isf (e_val e) t /\ forall v, run_line isf l v = run_entry isf e t v.
Proof.
  intros isf l e H. destruct (scan_entry _ _ _ H) as (t & S1 & S2 & _). exists t. split; [exact S2|]. intro v. unfold run_line, run_entry. now rewrite S1, find_instr_tx.
Qed.
Lemma run_file_inv : forall isf ls es, file_says isf ls es -> forall done v, Inv done v -> well_formed done es = true ->
  exists v', run_text isf ls v = Ok v' /\ Inv (done ++ es) v'.
Proof.
  intros isf ls es H. induction H as [|l ls es L F IH|l e ls es L F IH]; intros done v IV W.
  - exists v. rewrite app_nil_r. split; [reflexivity|exact IV].
  - cbn [run_text]. unfold run_line. rewrite (scan_nothing _ _ L). cbn [bind]. now apply IH.
  - cbn [well_formed] in W. apply andb_true_iff in W as [W1 W2]. destruct (run_entry_line _ _ _ L) as (t & S1 & S2).
    destruct (run_ok isf done e t v IV W1 S1) as [v1 R1]. cbn [run_text]. rewrite S2, R1. cbn [bind].
    destruct (IH (done ++ [e]) v1 (step_inv isf done e t v v1 IV W1 S1 R1) W2) as (v' & A & B). exists v'. split; [exact A|]. now rewrite <- app_assoc in B.
Qed.
