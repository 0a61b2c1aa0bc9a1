(** The variables after a part of the file hold what that part says. *)
From Coq Require Import Ascii String List ZArith Bool Lia.
From Verif Require Import M_Py M_Str M_Sdf P_Str M_Ssmif S_Ssmif P_Ssmif.
Import ListNotations.
Open Scope Z_scope.

Definition pvof (v : val) : pv := match v with NInt z => VI z | NText s => VS s | NFloat s => VF s end.

Definition writes (i : instr) (x : string) : bool :=
  match i with
  | Version => false
  | SetVar y _ => String.eqb x y
  | Alloc y arrs => match assoc x arrs with Some _ => true | None => String.eqb x y end
  | Alloc2 y _ arrs => match assoc x arrs with Some _ => true | None => String.eqb x y end
  | Put y _ _ => String.eqb x y
  | PutOrAll y _ => String.eqb x y
  | AspPut y loc _ => String.eqb x y || String.eqb x loc
  end.
Definition only_writers (x : string) (ks : list string) : bool :=
  forallb (fun e => negb (writes (snd e) x) || existsb (String.eqb (fst e)) ks) table.

Lemma bind_ok : forall A B (r : res A) (f : A -> res B) y, bind r f = Ok y -> exists a, r = Ok a /\ f a = Ok y.
Proof. intros A B [a|x] f y H; [now exists a|discriminate]. Qed.
Lemma frame : forall isf i ids v e e' x, run_instr isf i ids v e = Ok e' -> writes i x = false -> e' x = e x.
Proof.
  intros isf i ids v e e' x H W. destruct i; cbn [run_instr writes] in *.
  - destruct (parse_int v); [|discriminate]. destruct (z =? 10); [|discriminate]. now injection H as <-.
  - apply bind_ok in H as (a & _ & H). injection H as <-. unfold bind_var. now rewrite W.
  - destruct (parse_int v); [|discriminate]. injection H as <-. destruct (assoc x arrs); [discriminate|]. unfold bind_var. now rewrite W.
  - destruct (parse_int v); [|discriminate]. apply bind_ok in H as (r & _ & H). injection H as <-. destruct (assoc x arrs); [discriminate|]. unfold bind_var. now rewrite W.
  - apply bind_ok in H as (a & _ & H). apply bind_ok in H as (b & _ & H). apply bind_ok in H as (c0 & _ & H). injection H as <-. unfold bind_var. now rewrite W.
  - destruct (nth 0 ids (-1) =? -1).
    + apply bind_ok in H as (a & _ & H). destruct (as_int a <=? 0); [injection H as <-; unfold bind_var; now rewrite W|].
      apply bind_ok in H as (b & _ & H). injection H as <-. unfold bind_var. now rewrite W.
    + apply bind_ok in H as (a & _ & H). apply bind_ok in H as (b & _ & H). apply bind_ok in H as (c0 & _ & H). injection H as <-. unfold bind_var. now rewrite W.
  - apply orb_false_elim in W as [W1 W2]. apply bind_ok in H as (a & _ & H). cbv zeta in H. destruct (nth 0 ids (-1) =? -1).
    + apply bind_ok in H as (b & _ & H). injection H as <-. unfold bind_var. now rewrite W1, W2.
    + apply bind_ok in H as (b & _ & H). apply bind_ok in H as (c0 & _ & H). apply bind_ok in H as (d & _ & H). injection H as <-. unfold bind_var. now rewrite W1, W2.
Qed.
Lemma assoc_In : forall A k (l : list (string * A)) a, assoc k l = Some a -> In (k, a) l.
Proof.
  induction l as [|[n b] l IH]; intros a H; [discriminate|]. cbn [assoc] in H. destruct (String.eqb_spec k n); [injection H as <-; subst; now left|right; now apply IH].
Qed.
Lemma not_writer : forall x ks k i, only_writers x ks = true -> assoc k table = Some i -> ~ In k ks -> writes i x = false.
Proof.
  intros x ks k i O A N. unfold only_writers in O. rewrite forallb_forall in O. specialize (O _ (assoc_In _ _ _ _ A)). cbn [fst snd] in O.
  destruct (writes i x); [|reflexivity]. cbn [negb orb] in O. apply existsb_exists in O as (y & Y & E). apply String.eqb_eq in E. subst y. contradiction.
Qed.

(** *** What is said after one more entry. *)
Lemma said_snoc : forall done e k idx, said (done ++ [e]) k idx = if about k idx e then Some (e_val e) else said done k idx.
Proof. intros. unfold said. now rewrite fold_left_app. Qed.
Lemma about_key : forall k idx e, about k idx e = true -> e_key e = k.
Proof. intros k idx e H. unfold about in H. apply andb_true_iff in H as [H _]. now apply String.eqb_eq. Qed.
Lemma said_other : forall done e k idx, e_key e <> k -> said (done ++ [e]) k idx = said done k idx.
Proof. intros. rewrite said_snoc. destruct (about k idx e) eqn:E; [apply about_key in E; contradiction|reflexivity]. Qed.
Lemma declared_other : forall done e n, e_key e <> n -> declared (done ++ [e]) n = declared done n.
Proof. intros. unfold declared. now rewrite said_other. Qed.
Lemma num_other : forall done e n, e_key e <> n -> num (done ++ [e]) n = num done n.
Proof. intros. unfold num. now rewrite declared_other. Qed.
Lemma same_ids_eq : forall a b, same_ids a b = true <-> a = b.
Proof.
  induction a as [|x a IH]; intros [|y b]; cbn [same_ids]; split; intro H; try discriminate; try reflexivity.
  - apply andb_true_iff in H as [H1 H2]. apply Z.eqb_eq in H1. apply IH in H2. congruence.
  - injection H as -> ->. rewrite Z.eqb_refl. now apply IH.
Qed.
Lemma declared_new : forall done e n, e_ids e = [] -> e_val e = NInt n -> declared (done ++ [e]) (e_key e) = Some n.
Proof. intros done e n E V. unfold declared. rewrite said_snoc. unfold about. rewrite String.eqb_refl, E, V. reflexivity. Qed.

Definition conv_ok (c : conv) (t : ty) : bool :=
  match c, t with CInt, TInt => true | CFloat, TFloat => true | CStr, TText => true | CIntOrStr, TSlot => true | _, _ => false end.
Lemma convert_ok : forall isf c t v txt, conv_ok c t = true -> typed t v = true -> shows isf v txt -> convert isf c txt = Ok (pvof v).
Proof.
  intros isf c t v txt C T H. destruct c, t; try discriminate; destruct v; try discriminate; cbn [shows convert pvof] in *.
  - now rewrite H. - destruct H as [H ->]. now rewrite H. - now subst. - now rewrite H. - subst txt. cbn [typed] in T. destruct (parse_int s); [discriminate|reflexivity].
Qed.
Lemma typed_int : forall v, typed TInt v = true -> exists z, v = NInt z.
Proof. intros [z| |] H; try discriminate. now exists z. Qed.

(** *** The variables of the keywords. *)
Definition scal : list (string * string) :=
  [("STATION_ID", "idn"); ("GEO_N", "lat"); ("GEO_E", "lon"); ("GEO_EL", "elv"); ("DRX_GAIN", "drxGai"); ("N_STD", "nStand"); ("N_FEE", "nFee");
   ("N_RPD", "nRPD"); ("N_SEP", "nSEP"); ("N_ARB", "nARX"); ("N_ARBCH", "nChanARX"); ("N_SNAP", "nRoach"); ("N_SNAPCH", "nChanRoach");
   ("N_SERVER", "nServer"); ("N_DR", "nDR")]%string.
Definition eaches : list (string * (string * (Z * string))) :=
  [("ANT_STD", ("N_STD", (2, "stdAnt"))); ("ANT_ORIE", ("N_STD", (2, "stdOrie"))); ("ANT_STAT", ("N_STD", (2, "stdStat")));
   ("ANT_THETA", ("N_STD", (2, "stdTheta"))); ("ANT_PHI", ("N_STD", (2, "stdPhi")));
   ("FEE_ID", ("N_FEE", (1, "feeID"))); ("FEE_STAT", ("N_FEE", (1, "feeStat"))); ("FEE_DESI", ("N_FEE", (1, "feeDesi")));
   ("FEE_GAI1", ("N_FEE", (1, "feeGai1"))); ("FEE_GAI2", ("N_FEE", (1, "feeGai2"))); ("FEE_ANT1", ("N_FEE", (1, "feeAnt1"))); ("FEE_ANT2", ("N_FEE", (1, "feeAnt2")));
   ("RPD_ID", ("N_RPD", (1, "rpdID"))); ("RPD_STAT", ("N_RPD", (1, "rpdStat"))); ("RPD_LENG", ("N_RPD", (1, "rpdLeng"))); ("RPD_VF", ("N_RPD", (1, "rpdVF")));
   ("RPD_DD", ("N_RPD", (1, "rpdDD"))); ("RPD_A0", ("N_RPD", (1, "rpdA0"))); ("RPD_A1", ("N_RPD", (1, "rpdA1"))); ("RPD_FREF", ("N_RPD", (1, "rpdFre")));
   ("RPD_STR", ("N_RPD", (1, "rpdStr"))); ("RPD_DESI", ("N_RPD", (1, "rpdDesi"))); ("RPD_ANT", ("N_RPD", (1, "rpdAnt")));
   ("SEP_CABL", ("N_SEP", (1, "sepCbl"))); ("SEP_LENG", ("N_SEP", (1, "sepLeng"))); ("SEP_DESI", ("N_SEP", (1, "sepDesi"))); ("SEP_GAIN", ("N_SEP", (1, "sepGain")));
   ("SEP_ANT", ("N_SEP", (1, "sepAnt")));
   ("ARB_ID", ("N_ARB", (1, "arxID"))); ("ARB_SLOT", ("N_ARB", (1, "arxSlot"))); ("ARB_DESI", ("N_ARB", (1, "arxDesi")));
   ("SNAP_ID", ("N_SNAP", (1, "snapID"))); ("SNAP_SLOT", ("N_SNAP", (1, "snapSlot"))); ("SNAP_DESI", ("N_SNAP", (1, "snapDesi")));
   ("SERVER_ID", ("N_SERVER", (1, "serverID"))); ("SERVER_SLOT", ("N_SERVER", (1, "serverSlot"))); ("SERVER_STAT", ("N_SERVER", (1, "serverStat")));
   ("SERVER_DESI", ("N_SERVER", (1, "serverDesi")));
   ("DR_STAT", ("N_DR", (1, "drStat"))); ("DR_ID", ("N_DR", (1, "drID"))); ("DR_SHLF", ("N_DR", (1, "drShlf"))); ("DR_PC", ("N_DR", (1, "drPC"))); ("DR_NDP", ("N_DR", (1, "drNDP")));
   ("ASP_FLT", ("N_STD", (1, "aspFlt"))); ("ASP_AT1", ("N_STD", (1, "aspAT1"))); ("ASP_AT2", ("N_STD", (1, "aspAT2"))); ("ASP_AT3", ("N_STD", (1, "aspAT3")))]%string.
Definition grids : list (string * (string * (string * string))) :=
  [("ARB_STAT", ("N_ARB", ("N_ARBCH", "arxStat"))); ("ARB_ANT", ("N_ARB", ("N_ARBCH", "arxAnt"))); ("ARB_IN", ("N_ARB", ("N_ARBCH", "arxIn"))); ("ARB_OUT", ("N_ARB", ("N_ARBCH", "arxOut")));
   ("SNAP_STAT", ("N_SNAP", ("N_SNAPCH", "snapStat"))); ("SNAP_INR", ("N_SNAP", ("N_SNAPCH", "snapInR"))); ("SNAP_INC", ("N_SNAP", ("N_SNAPCH", "snapInC"))); ("SNAP_ANT", ("N_SNAP", ("N_SNAPCH", "snapAnt")))]%string.

Definition scal_ok (r : string * string) : Prop := let '(K, x) := r in
  only_writers x [K] = true /\ exists sh t d, entry_of K format = Some (sh, t, d) /\
    ((exists c, assoc K table = Some (SetVar x c) /\ sh = Scalar /\ conv_ok c t = true) \/
     (exists arrs, assoc K table = Some (Alloc x arrs) /\ sh = Count /\ t = TInt /\ assoc x arrs = None) \/
     (exists rows arrs N, assoc K table = Some (Alloc2 x rows arrs) /\ sh = CountIn N /\ t = TInt /\ assoc x arrs = None /\ In (N, rows) scal)).
Definition each_ok (r : string * (string * (Z * string))) : Prop := let '(K, (N, (m, x))) := r in
  String.eqb K N = false /\ only_writers x [K; N] = true /\ exists sh t d d0 nv arrs init, entry_of K format = Some (sh, t, d) /\ entry_of N format = Some (Count, TInt, d0) /\
    assoc N table = Some (Alloc nv arrs) /\ assoc x arrs = Some (m, init) /\ (forall k, 0 <= k -> init k = pvof (d 0 (k + 1) 0)) /\
    ((exists c, assoc K table = Some (Put x c [PId 0]) /\ sh = Each N m /\ conv_ok c t = true) \/
     (assoc K table = Some (PutOrAll x nv) /\ sh = EachOrAll N /\ m = 1 /\ t = TFloat /\ In (N, nv) scal) \/
     (exists loc src, assoc K table = Some (AspPut x loc src) /\ m = 1 /\ t = TInt /\ nv = "nStand"%string /\ In (N, nv) scal /\
        String.eqb x loc = false /\ String.eqb "nStand" loc = false /\ ((src = loc /\ sh = EachOrAll N) \/ sh = AllOnly N))).
Definition grid_ok (r : string * (string * (string * string))) : Prop := let '(K, (N, (M, x))) := r in
  String.eqb K M = false /\ String.eqb K N = false /\ String.eqb M N = false /\ only_writers x [K; M] = true /\ exists t c d d0 nv rows arrs init,
    entry_of K format = Some (Grid N M, t, d) /\ entry_of M format = Some (CountIn N, TInt, d0) /\ (exists dn, entry_of N format = Some (Count, TInt, dn)) /\
    assoc K table = Some (Put x c [PId 0; PId 1]) /\ conv_ok c t = true /\
    assoc M table = Some (Alloc2 nv rows arrs) /\ In (N, rows) scal /\ assoc x arrs = Some init /\
    (forall m n k, 0 <= n -> 0 <= k -> init m n k = pvof (d m (n + 1) (k + 1))).

Ltac in_list := cbn; repeat (first [left; reflexivity | right]).
Lemma scal_all : Forall scal_ok scal.
Proof.
  unfold scal at 1.
  repeat (apply Forall_cons; [split; [vm_compute; reflexivity | do 3 eexists; split; [reflexivity |
    first [left; eexists; split; [reflexivity|split; reflexivity] | right; left; eexists; split; [reflexivity|repeat split; reflexivity]
          | right; right; do 3 eexists; split; [reflexivity|split; [reflexivity|split; [reflexivity|split; [reflexivity|in_list]]]]]]]|]).
  apply Forall_nil.
Qed.
Lemma each_all : Forall each_ok eaches.
Proof.
  unfold eaches.
  repeat (apply Forall_cons; [split; [reflexivity|split; [vm_compute; reflexivity | do 7 eexists; split; [reflexivity | split; [reflexivity | split; [reflexivity | split; [reflexivity | split;
    [ intros k K; cbv beta iota delta [pvof i_ t_ f_ k_ unk z0 no_default]; first [reflexivity | f_equal; lia
        | f_equal; replace (k + 1 + 1) with (k + 1 * 2) by ring; rewrite Z.div_add by lia; lia
        | f_equal; replace (k + 1 + 1) with (k + 1 * 2) by ring; rewrite Z.mod_add by lia; reflexivity] |
      first [ left; eexists; split; [reflexivity|split; reflexivity]
            | right; left; split; [reflexivity|split; [reflexivity|split; [reflexivity|split; [reflexivity|in_list]]]]
            | right; right; do 2 eexists; split; [reflexivity|split; [reflexivity|split; [reflexivity|split; [reflexivity|split; [in_list|split; [reflexivity|split; [reflexivity|
                first [left; split; reflexivity | right; reflexivity]]]]]]]] ]]]]]]]]|]).
  apply Forall_nil.
Qed.
Lemma grid_all : Forall grid_ok grids.
Proof.
  unfold grids.
  repeat (apply Forall_cons; [split; [reflexivity|split; [reflexivity|split; [reflexivity|split; [vm_compute; reflexivity|do 8 eexists; split; [reflexivity|split; [reflexivity|split; [eexists; reflexivity|split; [reflexivity|split; [reflexivity|
    split; [reflexivity|split; [in_list|split; [reflexivity|
      intros m n k N K; cbv beta iota delta [pvof i_ t_ f_ k_ unk z0 no_default]; first [reflexivity | f_equal; lia | f_equal; ring]]]]]]]]]]]]]|]).
  apply Forall_nil.
Qed.

Record Inv (done : list entry) (env : env) : Prop := mkInv {
  i_scal : forall K x, In (K, x) scal -> env x = option_map pvof (said done K []);
  i_each : forall K N m x, In (K, (N, (m, x))) eaches -> (said done N [] = None -> forall idx, said done K idx = None) /\
    forall n, declared done N = Some n -> env x = Some (tab1 (m * n) (fun i => pvof (value done K [i])));
  i_grid : forall K N M x, In (K, (N, (M, x))) grids -> (said done M [] = None -> forall idx, said done K idx = None) /\
    forall n m, declared done N = Some n -> declared done M = Some m -> env x = Some (tab2 n m (fun i j => pvof (value done K [i; j])));
  i_pos : (said done "N_STD" [] = None -> forall K idx, In K ["STD_LX"; "STD_LY"; "STD_LZ"]%string -> said done K idx = None) /\
    forall n, declared done "N_STD" = Some n -> env "stdPos"%string = Some (VL (map (fun i =>
      VL [pvof (value done "STD_LX" [i]); pvof (value done "STD_LY" [i]); pvof (value done "STD_LZ" [i])]) (R n)));
  i_rack : forall n, declared done "N_ARB" = Some n -> exists f, env "arxRack"%string = Some (tab1 n f);
  i_cnt : forall N d, entry_of N format = Some (Count, TInt, d) -> (said done N [] = None /\ declared done N = None) \/ exists n, 0 <= n /\ said done N [] = Some (NInt n) /\ declared done N = Some n;
  i_cntin : forall M N d, entry_of M format = Some (CountIn N, TInt, d) -> (said done M [] = None /\ declared done M = None) \/
    exists n m, 0 <= m /\ said done M [] = Some (NInt m) /\ declared done M = Some m /\ declared done N = Some n }.

Section Step.
  Variable isf : str -> bool.
  Definition run_entry (e : entry) (t : str) (v : env) : res env :=
    match assoc (e_key e) table with Some i => run_instr isf i (pad3 (e_ids e)) t v | None => Ok v end.

  Lemma not_version : forall k a, entry_of k format = Some a -> String.eqb k "FORMAT_VERSION" = false.
  Proof. intros k a H. destruct (String.eqb_spec k "FORMAT_VERSION"); [subst; discriminate|reflexivity]. Qed.
  Lemma fits_row : forall done e sh t d, fits done e = true -> entry_of (e_key e) format = Some (sh, t, d) -> typed t (e_val e) = true /\
    match sh, e_ids e with
      | Scalar, [] => true
      | Count, [] => match e_val e, said done (e_key e) [] with NInt n, None => 0 <=? n | _, _ => false end
      | CountIn n, [] => match e_val e, said done (e_key e) [], declared done n with NInt m, None, Some _ => 0 <=? m | _, _, _ => false end
      | Each n m, [i] => match declared done n with Some k => within i (m * k) | None => false end
      | EachOrAll n, [i] => match declared done n with Some k => within i k | None => false end
      | EachOrAll n, [] => match declared done n with Some _ => true | None => false end
      | AllOnly n, [] => match declared done n with Some _ => true | None => false end
      | Grid n c, [i; j] => match declared done n, declared done c with Some k, Some m => within i k && within j m | _, _ => false end
      | _, _ => false
      end = true.
  Proof. intros done e sh t d H E. unfold fits in H. rewrite (not_version _ _ E), E in H. now apply andb_true_iff in H. Qed.
  Lemma within_le : forall i n, within i n = true -> 1 <= i <= n.
  Proof. intros i n H. unfold within in H. apply andb_true_iff in H as [A B]. apply Z.leb_le in A, B. lia. Qed.
  Lemma value_said : forall done K idx v, said done K idx = Some v -> value done K idx = v.
  Proof. intros done K idx v H. unfold value. now rewrite H. Qed.
  Lemma value_default : forall done K idx sh t d, said done K idx = None -> entry_of K format = Some (sh, t, d) ->
    value done K idx = d (match sh with Grid _ c => num done c | _ => 0 end) (nth 0 idx 0) (nth 1 idx 0).
  Proof. intros done K idx sh t d H E. unfold value. now rewrite H, E. Qed.
  Lemma value_same : forall done e K idx sh t d, entry_of K format = Some (sh, t, d) -> about K idx e = false ->
    match sh with Grid _ c => e_key e <> c | _ => True end -> value (done ++ [e]) K idx = value done K idx.
  Proof.
    intros done e K idx sh t d E A C. unfold value. rewrite said_snoc, A, E. destruct (said done K idx); [reflexivity|]. destruct sh; try reflexivity. now rewrite num_other.
  Qed.
  Lemma value_new : forall done e K idx, about K idx e = true -> value (done ++ [e]) K idx = e_val e.
  Proof. intros done e K idx A. unfold value. now rewrite said_snoc, A. Qed.
  Lemma about1 : forall K i j e, e_key e = K -> e_ids e = [j] -> about K [i] e = (i =? j).
  Proof. intros K i j e E1 E2. unfold about. rewrite E1, E2, String.eqb_refl. cbn [same_ids]. rewrite (Z.eqb_sym j i). destruct (i =? j); reflexivity. Qed.
  Lemma about2 : forall K i j a b e, e_key e = K -> e_ids e = [a; b] -> about K [i; j] e = ((i =? a) && (j =? b)).
  Proof. intros K i j a b e E1 E2. unfold about. rewrite E1, E2, String.eqb_refl. cbn [same_ids]. rewrite (Z.eqb_sym a i), (Z.eqb_sym b j). destruct (i =? a), (j =? b); reflexivity. Qed.
  Lemma about_all : forall K idx e, e_key e = K -> e_ids e = [] -> about K idx e = true.
  Proof. intros K idx e E1 E2. unfold about. rewrite E1, E2, String.eqb_refl. cbn [andb]. now rewrite orb_true_r. Qed.
  Lemma about_no : forall K idx e, e_key e <> K -> about K idx e = false.
  Proof. intros. destruct (about K idx e) eqn:A; [apply about_key in A; contradiction|reflexivity]. Qed.

  Variables (done : list entry) (e : entry) (t : str) (v v' : env).
  Hypothesis IV : Inv done v.
  Hypothesis FT : fits done e = true.
  Hypothesis SH : shows isf (e_val e) t.
  Hypothesis RUN : run_entry e t v = Ok v'.

  Lemma keep : forall x ks, only_writers x ks = true -> ~ In (e_key e) ks -> v' x = v x.
  Proof.
    intros x ks O N. unfold run_entry in RUN. destruct (assoc (e_key e) table) as [i|] eqn:A; [|now injection RUN as <-].
    eapply frame; [exact RUN|]. eapply not_writer; eassumption.
  Qed.

  Lemma step_scal : forall K x, In (K, x) scal -> v' x = option_map pvof (said (done ++ [e]) K []).
  Proof.
    intros K x I1. pose proof scal_all as A. rewrite Forall_forall in A. destruct (A _ I1) as (O & sh & ty0 & d & EK & C). clear A.
    destruct (String.eqb_spec (e_key e) K) as [E|E].
    2:{ rewrite (keep x [K] O) by (intros [X|[]]; congruence). rewrite said_other by exact E. now apply (i_scal _ _ IV). }
    rewrite <- E in EK, C. destruct (fits_row _ _ _ _ _ FT EK) as [TY FR]. unfold run_entry in RUN.
    assert (ID : e_ids e = []). { destruct C as [(c & _ & -> & _)|[(arrs & _ & -> & _)|(rows & arrs & N & _ & -> & _)]]; destruct (e_ids e); [reflexivity|discriminate|reflexivity|discriminate|reflexivity|discriminate]. }
    rewrite said_snoc, (about_all K [] e E ID). cbn [option_map].
    destruct C as [(c & TA & -> & CV)|[(arrs & TA & -> & -> & NA)|(rows & arrs & N & TA & -> & -> & NA & RI)]]; rewrite TA in RUN; cbn [run_instr] in RUN.
    - rewrite (convert_ok _ _ _ _ _ CV TY SH) in RUN. injection RUN as <-. unfold bind_var. now rewrite String.eqb_refl.
    - destruct (typed_int _ TY) as [z EZ]. rewrite EZ in *. cbn [shows] in SH. rewrite SH in RUN. injection RUN as <-. rewrite NA. unfold bind_var. now rewrite String.eqb_refl.
    - destruct (typed_int _ TY) as [z EZ]. rewrite EZ in *. cbn [shows] in SH. rewrite SH in RUN. apply bind_ok in RUN as (r & _ & RUN). injection RUN as <-. rewrite NA. unfold bind_var. now rewrite String.eqb_refl.
  Qed.

  Lemma zr_R : forall A (f : Z -> A) n, map f (zrange n) = map (fun i => f (i - 1)) (R n).
  Proof. intros. unfold R. rewrite map_map. apply map_ext. intro a. f_equal. lia. Qed.

  Lemma step_each : forall K N m x, In (K, (N, (m, x))) eaches -> (said (done ++ [e]) N [] = None -> forall idx, said (done ++ [e]) K idx = None) /\
    forall n, declared (done ++ [e]) N = Some n -> v' x = Some (tab1 (m * n) (fun i => pvof (value (done ++ [e]) K [i]))).
  Proof.
    intros K N m x I1. pose proof each_all as A. rewrite Forall_forall in A. destruct (A _ I1) as (KN & O & sh & ty0 & d & d0 & nv & arrs & init & EK & EN & TN & AX & DF & C). clear A.
    apply String.eqb_neq in KN. destruct (i_each _ _ IV _ _ _ _ I1) as [I2 I3].
    assert (NG : match sh with Grid _ c => e_key e <> c | _ => True end) by (destruct C as [(? & _ & -> & _)|[(_ & -> & _)|(? & ? & _ & _ & _ & _ & _ & _ & _ & [[_ ->]| ->])]]; exact I).
    assert (NG0 : match sh with Grid _ c => num (done ++ [e]) c | _ => 0 end = 0) by (destruct C as [(? & _ & -> & _)|[(_ & -> & _)|(? & ? & _ & _ & _ & _ & _ & _ & _ & [[_ ->]| ->])]]; reflexivity).
    destruct (String.eqb_spec (e_key e) N) as [E|E].
    - (* the section is declared *)
      rewrite <- E in EN, TN. destruct (fits_row _ _ _ _ _ FT EN) as [TY FR]. unfold run_entry in RUN. rewrite TN in RUN. cbn [run_instr] in RUN.
      destruct (typed_int _ TY) as [z EZ]. destruct (e_ids e) eqn:ID; [|discriminate]. rewrite EZ in FR, SH. cbn [shows] in SH. rewrite SH in RUN. injection RUN as <-.
      destruct (said done (e_key e) []) eqn:SD; [discriminate|]. rewrite E in SD.
      split; [intro H; rewrite said_snoc, (about_all N [] e E ID) in H; discriminate|].
      intros n DN. rewrite <- E in DN. rewrite (declared_new done e z ID EZ) in DN. injection DN as <-. rewrite AX. unfold tab1. do 2 f_equal. rewrite zr_R. apply map_ext_in. intros i II. apply R_In in II.
      rewrite DF by lia. replace (i - 1 + 1) with i by lia. f_equal. symmetry.
      rewrite (value_default _ _ _ _ _ _ (eq_trans (said_other done e K [i] ltac:(congruence)) (I2 SD [i])) EK). now rewrite NG0.
    - rewrite said_other, declared_other by exact E. destruct (String.eqb_spec (e_key e) K) as [EQ|EQ].
      2:{ rewrite (keep x [K; N] O) by (intros [X|[X|[]]]; congruence). split; [intros H idx; rewrite said_other by exact EQ; now apply I2|].
          intros n DN. rewrite (I3 n DN). f_equal. apply tab1_ext. intros i _. f_equal. symmetry. eapply value_same; [exact EK|now apply about_no|exact NG]. }
      pose proof EK as EK0. rewrite <- EQ in EK0. destruct (fits_row _ _ _ _ _ FT EK0) as [TY FR]. unfold run_entry in RUN.
      destruct (i_cnt _ _ IV _ _ EN) as [(SN & DNn)|(n0 & N0 & SN & DNn)].
      { exfalso. destruct C as [(? & _ & -> & _)|[(_ & -> & _)|(? & ? & _ & _ & _ & _ & _ & _ & _ & [[_ ->]| ->])]]; rewrite DNn in FR; destruct (e_ids e) as [|? [|? ?]]; discriminate. }
      split; [intro H; congruence|]. intros n DN. rewrite DNn in DN. injection DN as <-. specialize (I3 n0 DNn).
      destruct C as [(c & TA & -> & CV)|[(TA & -> & -> & -> & RI)|(loc & src & TA & -> & -> & -> & RI & XL & NL & SS)]]; rewrite EQ in RUN; rewrite TA in RUN; cbn [run_instr] in RUN.
      + destruct (e_ids e) as [|i [|? ?]] eqn:ID; try discriminate. rewrite DNn in FR. apply within_le in FR.
        rewrite (convert_ok _ _ _ _ _ CV TY SH) in RUN. cbn [bind] in RUN. unfold get_var in RUN. rewrite I3 in RUN. cbn [bind map index pad3 app firstn nth] in RUN.
        rewrite put1 in RUN by exact FR. cbn [bind] in RUN. injection RUN as <-. unfold bind_var. rewrite String.eqb_refl. f_equal. apply tab1_ext. intros k K1.
        destruct (Z.eqb_spec k i) as [->|NE].
        * rewrite value_new; [reflexivity|]. rewrite (about1 K i i e EQ ID). apply Z.eqb_refl.
        * f_equal. symmetry. eapply value_same; [exact EK| |exact I]. rewrite (about1 K k i e EQ ID). now apply Z.eqb_neq.
      + assert (NV : v nv = Some (VI n0)) by (rewrite (i_scal _ _ IV _ _ RI), SN; reflexivity).
        destruct (e_ids e) as [|i [|? ?]] eqn:ID; try discriminate.
        * cbn [pad3 app firstn nth Z.eqb] in RUN. unfold get_var in RUN. rewrite NV in RUN. cbn [bind as_int] in RUN.
          assert (G : forall k, pvof (value (done ++ [e]) K [k]) = pvof (e_val e)) by (intro k; f_equal; apply value_new, about_all; assumption).
          destruct (Z.leb_spec n0 0).
          { injection RUN as <-. unfold bind_var. rewrite String.eqb_refl. replace n0 with 0 by lia. reflexivity. }
          rewrite (convert_ok _ CFloat TFloat _ _ eq_refl TY SH) in RUN. cbn [bind] in RUN. injection RUN as <-. unfold bind_var. rewrite String.eqb_refl. unfold tab1. do 2 f_equal. rewrite Z.mul_1_l, zr_R. apply map_ext. intro k. now rewrite G.
        * rewrite DNn in FR. apply within_le in FR. cbn [pad3 app firstn nth] in RUN. replace (i =? -1) with false in RUN by (symmetry; apply Z.eqb_neq; lia).
          rewrite (convert_ok _ CFloat TFloat _ _ eq_refl TY SH) in RUN. cbn [bind] in RUN. unfold get_var in RUN. rewrite I3 in RUN. cbn [bind] in RUN.
          rewrite put1 in RUN by lia. cbn [bind] in RUN. injection RUN as <-. unfold bind_var. rewrite String.eqb_refl. f_equal. apply tab1_ext. intros k K1.
          destruct (Z.eqb_spec k i) as [->|NE].
          -- rewrite value_new; [reflexivity|]. rewrite (about1 K i i e EQ ID). apply Z.eqb_refl.
          -- f_equal. symmetry. eapply value_same; [exact EK| |exact I]. rewrite (about1 K k i e EQ ID). now apply Z.eqb_neq.
      + assert (NV : v "nStand"%string = Some (VI n0)) by (rewrite (i_scal _ _ IV _ _ RI), SN; reflexivity).
        rewrite (convert_ok _ CInt TInt _ _ eq_refl TY SH) in RUN. cbn [bind] in RUN. cbv zeta in RUN.
        assert (ID : e_ids e = [] \/ exists i, e_ids e = [i] /\ src = loc /\ 1 <= i <= n0).
        { destruct SS as [[-> ->]| ->]; destruct (e_ids e) as [|i [|? ?]]; try discriminate; [now left| |now left]. right. exists i. rewrite DNn in FR. apply within_le in FR. auto. }
        destruct ID as [ID|(i & ID & -> & RG)]; rewrite ID in RUN; cbn [pad3 app firstn nth] in RUN.
        * cbn [Z.eqb] in RUN. unfold get_var in RUN. unfold bind_var in RUN at 1. rewrite NL, NV in RUN. cbn [bind as_int] in RUN. injection RUN as <-. unfold bind_var at 1. rewrite String.eqb_refl.
          unfold tab1. do 2 f_equal. rewrite Z.mul_1_l, zr_R. apply map_ext. intro k. f_equal. symmetry. apply value_new, about_all; assumption.
        * replace (i =? -1) with false in RUN by (symmetry; apply Z.eqb_neq; lia). unfold get_var in RUN. unfold bind_var in RUN at 1. rewrite String.eqb_refl in RUN. cbn [bind] in RUN.
          unfold bind_var in RUN at 1. rewrite XL, I3 in RUN. cbn [bind] in RUN. rewrite put1 in RUN by lia. cbn [bind] in RUN. injection RUN as <-. unfold bind_var at 1. rewrite String.eqb_refl. f_equal. apply tab1_ext. intros k K1.
          destruct (Z.eqb_spec k i) as [->|NE].
          -- rewrite value_new; [reflexivity|]. rewrite (about1 K i i e EQ ID). apply Z.eqb_refl.
          -- f_equal. symmetry. eapply value_same; [exact EK| |exact NG]. rewrite (about1 K k i e EQ ID). now apply Z.eqb_neq.
  Qed.
End Step.
