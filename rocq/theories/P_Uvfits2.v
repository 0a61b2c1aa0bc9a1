(** A UVFITS file holds the integrations that were written, and the reader returns them. *)
From Coq Require Import String.
From Coq Require Import List ZArith QArith Qabs Sorted Permutation Bool Lia Lqa.
From Verif Require Import M_Uvfits S_Idi S_Uvfits P_Base P_Str P_Vis P_Vis2 P_Idi P_Idi2 P_Idi3 P_Idi4 P_Idi5 P_Uvfits.
Import ListNotations.
Open Scope Z_scope.

(** ** Stands *)
Lemma uv_name_check : forallb (fun s => match stand_of_name (clip 8 (get_name Uv s)) with Some t => t =? s | None => false end) (range 0 1000) = true.
Proof. vm_compute. reflexivity. Qed.
Lemma uv_names : forall A (f : A -> Z) l, Forall (fun s => 0 <= s < 1000) (map f l) -> all_stands (map (fun a => clip 8 (get_name Uv (f a))) l) = Some (map f l).
Proof.
  intros A f l. induction l as [|a l IH]; intro F; [reflexivity|]. cbn [map all_stands] in *. inversion F as [|? ? F1 F2]; subst. rewrite IH by auto.
  pose proof uv_name_check as H. rewrite forallb_forall in H. specialize (H (f a) ltac:(apply range_in; lia)).
  destruct (stand_of_name (clip 8 (get_name Uv (f a)))) as [t|]; [|discriminate]. apply Z.eqb_eq in H. subst t. reflexivity.
Qed.
Lemma short_numbered : forall stands, short_numbers stands -> numbered Uv stands.
Proof.
  intros stands (N & D & F). split; [exact N|]. split; [exact D|]. split; [eapply Forall_impl; [|apply F]; simpl; intros; lia|].
  assert (L : (length stands <= length (range 0 1000))%nat).
  { apply NoDup_incl_length; auto. intros s Is. rewrite Forall_forall in F. apply range_in. auto. }
  change (length (range 0 1000)) with 1000%nat in L. unfold zlen. simpl. lia.
Qed.
Lemma max_short : forall stands, Forall (fun s => 0 <= s < 1000) stands -> fold_right Z.max 0 stands < 1000.
Proof. induction 1 as [|s l H F IH]; simpl; lia. Qed.

Lemma head_data : forall V W U P (E : sky V W U P) codes (l : list (@integration V W P)), l <> [] -> codes <> [] ->
  match flat_map (fun i => map (ds codes i) (seq 0 (length codes))) l with [] => False | d :: _ => nth_error codes 0 = Some (d_pol d) /\ day0 E (d_time d) = first_day E l end.
Proof. intros V W U P E [|c cs] [|i l] H1 H2; try congruence. cbn [flat_map length seq map app ds d_pol d_time first_day nth nth_error]. auto. Qed.
Lemma flat_nonempty : forall A B (f : A -> list B) l, l <> [] -> (forall a, In a l -> f a <> []) -> flat_map f l <> [].
Proof. intros A B f [|a l] N H C; [congruence|]. simpl in C. apply app_eq_nil in C. destruct C as (C & _). apply (H a); auto. left. auto. Qed.
Lemma flat_map_map : forall A B C (f : A -> list B) (g : B -> C) l, flat_map (fun a => map g (f a)) l = map g (flat_map f l).
Proof. induction l as [|a l IH]; simpl; auto. rewrite map_app, IH. reflexivity. Qed.

Lemma find_one : forall X (ants : list (Z * X)) a, NoDup (map fst ants) -> In a ants -> find (fun b => fst b =? fst a) ants = Some a.
Proof.
  induction ants as [|b ants IH]; intros a Nd Ia; [destruct Ia|]. simpl in Nd. inversion Nd as [|? ? N1 N2]; subst. simpl.
  destruct (Z.eqb_spec (fst b) (fst a)) as [C|C].
  - destruct Ia as [->|Ia]; auto. exfalso. apply N1. rewrite C. apply in_map. auto.
  - destruct Ia as [->|Ia]; [congruence|auto].
Qed.
Lemma find_all : forall X (ants : list (Z * X)), NoDup (map fst ants) ->
  flat_map (fun s => match find (fun a => fst a =? s) ants with Some a => [a] | None => [] end) (map fst ants) = ants.
Proof.
  intros X ants Nd. assert (G : forall m, incl m ants -> flat_map (fun s => match find (fun a : Z * X => fst a =? s) ants with Some a => [a] | None => [] end) (map fst m) = m).
  { induction m as [|a m IH]; intro Hi; simpl; auto. rewrite (find_one X ants a Nd (Hi a (or_introl eq_refl))). simpl. f_equal. apply IH. intros x Ix. apply Hi. right. auto. }
  apply G. apply incl_refl.
Qed.

Lemma sorted_left : forall A (J : A -> Q) a i b, StronglySorted (fun x y => J x < J y)%Q (a ++ i :: b) -> forall j, In j a -> (J j < J i)%Q.
Proof.
  intros A J a i b Js j Ij. induction a as [|x a IH]; [destruct Ij|]. simpl in Js. inversion Js as [|? ? H1 H2]; subst.
  destruct Ij as [->|Ij]; [|auto]. rewrite Forall_forall in H2. apply H2. apply in_or_app. right. left. auto.
Qed.
Lemma sorted_right : forall A (J : A -> Q) a i b, StronglySorted (fun x y => J x < J y)%Q (a ++ i :: b) -> forall j, In j b -> (J i < J j)%Q.
Proof.
  intros A J a i b Js j Ij. induction a as [|x a IH]; simpl in Js; inversion Js as [|? ? H1 H2]; subst; auto.
  rewrite Forall_forall in H2. apply H2. auto.
Qed.

Section Main.
Context {V W U P X : Type} (E : sky V W U P).
Variable par : Q -> Q -> Q.
Notation integration := (@integration V W P).
Notation row := ((Z * Z) * list (list V * list W))%type.

Variables (pols : list polarization) (codes : list Z) (names : list string).
Variables (width : Q) (nchan : nat) (freq : list Q) (antennas : list (Z * X)).
Variables (l : list integration) (calls : list (@call V W P)).
Let n := length codes.
Let stands := map fst antennas.

Hypothesis Haxis : axis codes.
Hypothesis Hpols : names_axis pols codes.
Hypothesis Hnames : Forall2 (fun c nm => code_name c = Some nm) codes names.
Hypothesis Hfreq : regular width nchan [freq].
Hypothesis Hstands : short_numbers stands.
Hypothesis Hl : l <> [].
Hypothesis Hcomplete : Forall (complete stands n (Z.of_nat nchan)) l.
Hypothesis Hlayout : same_layout l.
Hypothesis Hsources : one_position_per_name E l.
Hypothesis Hdates : dates_kept E par l.
Hypothesis Hcalls : calls_of codes l calls.

Let E1 := plain E.
Let num (s : Z) : Z := s.
Let tbl := fold_left (add_source E1) l [].
Let R := first_day E l.
Definition to_group (u : @uvrow V W U) : @grow V U :=
  mkGrow (re (t_bl u)) (par R (t_date u - R)%Q) (par 0 (t_time u)) (par 0 (t_int u)) (t_uvw u) (t_src u) (t_flux u).
Definition ublk (i : integration) : list (@grow V U) := map to_group (block E1 16 num codes nchan tbl i).
Let blocks := flat_map ublk l.

Lemma Hnumbered : numbered Uv stands.
Proof. exact (short_numbered stands Hstands). Qed.
Lemma un_pos : (0 < n)%nat.
Proof. unfold n. destruct Haxis as (N & _). destruct codes; [congruence|]. simpl. lia. Qed.
Lemma ucodes_nodup : NoDup codes.
Proof. apply axis_nodup. auto. Qed.
Lemma in_short : forall s, In s stands -> 0 <= s < 1000.
Proof. intros s Is. destruct Hstands as (_ & _ & F). rewrite Forall_forall in F. auto. Qed.
Lemma no_mapper : (max_ants Uv <? fold_right Z.max 0 stands) = false.
Proof. apply Z.ltb_ge. destruct Hstands as (_ & _ & F). pose proof (max_short stands F). simpl. lia. Qed.
Lemma unum_id : forall s, P_Idi4.num Uv antennas s = s.
Proof. intro s. unfold P_Idi4.num. fold stands. rewrite no_mapper. reflexivity. Qed.
Lemma umap_none : map_of Uv antennas = None.
Proof. unfold map_of. fold stands. rewrite no_mapper. reflexivity. Qed.

Lemma udata_sorted : StronglySorted ds_lt (flat_map (fun i => map (ds codes i) (seq 0 n)) l).
Proof.
  eapply sorted_flat; [apply Hdates| |].
  - intros i Ii. apply sorted_seq. intros p q Hpq. right. split; [reflexivity|]. apply (axis_abs codes p q Haxis). auto.
  - intros i j x y Ii Ij [H _] Ix Iy. apply in_map_iff in Ix. destruct Ix as (p & <- & _). apply in_map_iff in Iy. destruct Iy as (q & <- & _).
    left. exact H.
Qed.
Lemma ucalls_data : exists data, Forall2 (fun c d => exists code, code_of (c_pol c) = Ok code /\ d = ds_of_call c code) calls data /\
  Permutation data (flat_map (fun i => map (ds codes i) (seq 0 n)) l).
Proof.
  destruct Hcalls as (calls' & F & Pm). exists (map to_ds calls'). split.
  - clear - F. induction F as [|c c' cs cs' (Hc & code & Hp & Hs) F IH]; simpl; constructor; auto.
    exists code. split; [apply stands_for_ok; auto|]. unfold to_ds. rewrite Hp. rewrite Hc. reflexivity.
  - etransitivity; [apply Permutation_map; apply Pm|]. clear. replace (map to_ds (flat_map (calls_for codes) l)) with (flat_map (fun i => map (ds codes i) (seq 0 n)) l); auto.
    induction l as [|i m IH]; simpl; auto. rewrite map_app, <- IH. f_equal. unfold calls_for. rewrite map_map. reflexivity.
Qed.
Lemma Hsources1 : one_position_per_name E1 l.
Proof. exact Hsources. Qed.
Lemma usources_listed : Forall (listed E1 tbl) l.
Proof.
  apply Forall_forall. intros i Ii. unfold listed. destruct Hsources1 as (_ & Z). destruct (sources_ok E1 l [] Z) as (_ & H & _); auto.
Qed.
Lemma usource_at : forall i, In i l -> 0 <= src_no E1 tbl i /\ nth_error tbl (Z.to_nat (src_no E1 tbl i)) = Some (center_of E i).
Proof.
  intros i Ii. pose proof usources_listed as L. rewrite Forall_forall in L. specialize (L i Ii). unfold listed in L.
  unfold src_no. destruct (list_index_ok _ str_eqb str_eqb_iff _ _ L) as (j & -> & J0 & Hj). split; auto.
  rewrite nth_error_map in Hj. destruct (nth_error tbl (Z.to_nat j)) as [e|] eqn:Ne; [|discriminate]. simpl in Hj. injection Hj as Hj.
  destruct Hsources1 as (One & Z). destruct (sources_ok E1 l [] Z) as (_ & _ & H3); auto.
  assert (Ie : In e (fold_left (add_source E1) l [])) by (apply nth_error_In in Ne; exact Ne).
  destruct (H3 e Ie) as [[]|(j' & Ij & Ej)]. subst e. f_equal.
  apply injective_projections; [exact Hj|apply One; auto].
Qed.
Lemma uin_ok : forall i, In i l -> ok stands codes nchan i.
Proof. intros i Ii. rewrite Forall_forall in Hcomplete. apply Hcomplete. auto. Qed.
Lemma unum_range : forall s, In s stands -> 0 <= num s < 2 ^ 16.
Proof. intros s Is. pose proof (in_short s Is). unfold num. lia. Qed.
Lemma unum_inj : forall s t, In s stands -> In t stands -> num s = num t -> s = t.
Proof. auto. Qed.
Lemma urows_ok : forall i, In i l ->
  take (i_rows i) (order_of 16 num i) = Ok (sorted_rows 16 num i) /\ Permutation (i_rows i) (sorted_rows 16 num i) /\
  length (sorted_rows 16 num i) = length (i_rows i).
Proof.
  intros i Ii. destruct (sorted_rows_ok 16 stands num ltac:(lia) unum_range unum_inj codes nchan i (uin_ok i Ii)) as (H1 & H2 & _ & _ & H5). auto.
Qed.
Lemma ublk_nonempty : forall i, In i l -> ublk i <> [].
Proof.
  intros i Ii. destruct (urows_ok i Ii) as (_ & _ & L). destruct (uin_ok i Ii) as (N & _). unfold ublk, block.
  destruct (sorted_rows 16 num i); [|discriminate]. simpl in L. destruct (i_rows i); [congruence|discriminate].
Qed.

Definition ufile (wd ref : Q) : ufits V U P X :=
  mkUF (map (fun a => (clip 8 (get_name Uv (fst a)), snd a, fst a)) antennas) (map (fun r => (clip 16 (fst r), snd r)) tbl) wd ref (Z.of_nat nchan) (zlen codes)
       (nth 0 codes 0) (step_of (nth 0 codes 0)) (groups_of blocks).

Lemma set_frequency_one : exists wd, set_frequency (mkWr Uv "ZA" codes (zlen codes) 0 0%Q 0%Q [] [] [] : writer V W P X) freq =
   (mkWr Uv "ZA" codes (zlen codes) (Z.of_nat nchan) (nth 0 freq 0%Q) wd [mkB 0 wd (Qabs (last freq 0 - nth 0 freq 0)%Q)] [] [], Ok tt) /\ (wd == width)%Q.
Proof.
  destruct Hfreq as (_ & Hn & Hw & F). apply Forall_inv in F. destruct F as (L & Fb).
  destruct freq as [|f0 [|f1 b]]; [simpl in L; lia|simpl in L; lia|]. rewrite <- L.
  exists (Qabs (f1 - f0)%Q). split; [reflexivity|]. pose proof (Fb 1%nat Hn) as K. cbn [nth] in K. change (inject_Z (Z.of_nat 1)) with 1%Q in K.
  rewrite Qabs_pos; [rewrite K; ring|]. rewrite K. lra.
Qed.

Lemma ufull : forall p, (p < n)%nat -> exists i, In (ds codes i p) (flat_map (fun i => map (ds codes i) (seq 0 n)) l).
Proof.
  intros p Hp. destruct (some_in _ l Hl) as (i & Ii). exists i. apply in_flat_map. exists i. split; [auto|]. apply in_map. apply in_seq. lia.
Qed.

Lemma uloop_ok : exists us, uvf_loop (uvf_pass E None codes (Z.of_nat nchan) tbl) (flat_map (fun i => map (ds codes i) (seq 0 n)) l)
    (mkUL None None None None (mkGr [] [] [] [] [] [] [])) = Ok us /\ store par us = Ok (groups_of blocks).
Proof.
  pose proof un_pos as Np. pose proof ucodes_nodup as Nd.
  assert (Hm : forall s, In s stands -> mapped None s = Ok (num s)) by reflexivity.
  destruct (loop_all E1 None 16 stands num ltac:(lia) Hm unum_range unum_inj codes nchan Nd Np tbl str_eqb_iff l Hlayout Hcomplete usources_listed) as (st & Hst & Hu).
  fold n in Hst. destruct (loop_same E None codes (Z.of_nat nchan) tbl R (flat_map (fun i => map (ds codes i) (seq 0 n)) l) (mkL None None None (mkUV [] [] [] [] [] [] [] [])) (mkUL None None None None (mkGr [] [] [] [] [] [] [])) st) as (us & H1 & H2 & H3); [| | |exact Hst|].
  - repeat split; auto.
  - apply Forall_forall. intros d Id. apply in_flat_map in Id. destruct Id as (i & Ii & Id). apply in_map_iff in Id. destruct Id as (p & <- & _).
    intros b s Ib Hs. cbn [ds d_bl] in Ib. destruct (uin_ok i Ii) as (_ & _ & F). rewrite Forall_forall in F. apply in_map_iff in Ib. destruct Ib as (r & <- & Ir).
    destruct (F r Ir) as (K1 & K2 & _). cbn [mapped] in Hs. apply in_short in K1. apply in_short in K2. destruct Hs as [Hs|Hs]; injection Hs as <-; lia.
  - right. split; [reflexivity|]. apply head_data; auto. destruct Haxis as (N & _). exact N.
  - exists us. split; [exact H1|]. destruct H2 as (_ & _ & _ & _ & Hg). unfold store. rewrite Hg, H3, Hu. unfold conv, table_of.
    cbn [u_bl u_date u_time u_int u_uvw u_src u_flux gr_bl gr_date gr_day gr_int gr_uvw gr_src gr_vis].
    assert (Ne : flat_map (block E1 16 num codes nchan tbl) l <> []).
    { apply flat_nonempty; auto. intros i Ii C. apply (ublk_nonempty i Ii). unfold ublk. rewrite C. reflexivity. }
    assert (Bl : blocks = map to_group (flat_map (block E1 16 num codes nchan tbl) l)).
    { apply flat_map_map. }
    rewrite Bl. destruct (flat_map (block E1 16 num codes nchan tbl) l) as [|u us']; [congruence|]. cbn [map].
    match goal with |- context [negb (?a =? ?b)] => replace (a =? b) with true; [cbn [negb]|symmetry; apply Z.eqb_eq; unfold zlen; cbn [length]; rewrite !map_length; reflexivity] end.
    unfold groups_of. cbn [map]. rewrite !map_map. reflexivity.
Qed.

Lemma uwrite_ok : exists wd, write_uvfits E par pols [freq] antennas calls = Ok (ufile wd (nth 0 freq 0%Q)) /\ (wd == width)%Q.
Proof.
  pose proof un_pos as Np. pose proof ucodes_nodup as Nd. destruct set_frequency_one as (wd & Hf & Hw). exists wd. split; auto.
  destruct ucalls_data as (data & Fd & Pd). destruct Hnumbered as (S0 & S1 & S2 & S3).
  set (fs := [mkB 0 wd (Qabs (last freq 0 - nth 0 freq 0)%Q)]) in *.
  assert (Hg : set_geometry (mkWr Uv "ZA" codes (zlen codes) (Z.of_nat nchan) (nth 0 freq 0%Q) wd fs [] [] : writer V W P X) antennas =
     (mkWr Uv "ZA" codes (zlen codes) (Z.of_nat nchan) (nth 0 freq 0%Q) wd fs
        [mkG antennas (build_mapper (max_ants Uv <? fold_right Z.max 0 stands) 0 stands []) (max_ants Uv <? fold_right Z.max 0 stands)] [], Ok tt)).
  { unfold set_geometry. cbn [w_kind w_array]. unfold stands in S3. rewrite zlen_map in S3.
    destruct (Z.ltb_spec (max_ants Uv) (zlen antennas)); [lia|]. unfold stands. destruct antennas as [|a ants]; [exfalso; apply S0; reflexivity|]. reflexivity. }
  assert (T : forall (a : writer V W P X) g, then_ (a, Ok tt) g = g a) by reflexivity.
  assert (Su : snd (set_up pols [freq] antennas calls) = Ok tt /\ fst (set_up pols [freq] antennas calls) =
     mkWr Uv "ZA" codes (zlen codes) (Z.of_nat nchan) (nth 0 freq 0%Q) wd fs
        [mkG antennas (build_mapper (max_ants Uv <? fold_right Z.max 0 stands) 0 stands []) (max_ants Uv <? fold_right Z.max 0 stands)] data).
  { unfold set_up. cbv zeta. rewrite T. pose proof (set_stokes_ok (V := V) (W := W) (P := P) (X := X) Uv "ZA" pols codes Haxis Hpols) as Hst.
    change (set_mode (new_writer Uv) "ZA") with (new_writer Uv : writer V W P X) in Hst. rewrite Hst.
    cbn [fold_left]. rewrite T, Hf, T, Hg. rewrite (add_calls_ok _ _ _ _ _ _ _ _ _ _ _ _ Fd). auto. }
  destruct Su as (Su1 & Su2). unfold write_uvfits. cbv zeta. rewrite Su1, Su2. unfold write_uv. cbn [w_nstokes w_freq w_array w_data w_stokes w_kind w_nchan w_ref w_mode].
  assert (Zc : zlen codes <> 0) by (unfold zlen; fold n; lia).
  destruct (Z.eqb_spec (zlen codes) 0); [congruence|]. change (zlen fs) with 1. cbn [Z.eqb Z.ltb Z.compare Pos.compare Pos.compare_cont]. unfold fs at 1.
  assert (Sd : sort_ds data = flat_map (fun i => map (ds codes i) (seq 0 n)) l) by (apply sort_ds_of; auto using udata_sorted).
  destruct (Z.eqb_spec (zlen data) 0) as [D|D].
  { apply zlen_0 in D. subst data. destruct (ufull O Np) as (i & Ii). apply (Permutation_in _ (Permutation_sym Pd)) in Ii. destruct Ii. }
  pose proof (write_geometry_ok Uv antennas Hnumbered) as Wg. fold stands in Wg. rewrite Wg. cbn [bind].
  rewrite (py_index_ok 0) by (unfold zlen; fold n; lia). cbn [bind]. change (znth 0 0 codes) with (nth 0 codes 0).
  rewrite Sd. change (source_table E) with (source_table E1). rewrite (table_all E1 codes Nd Np). fold tbl. rewrite umap_none. cbn [read_array_mapper].
  destruct uloop_ok as (us & H1 & H2). rewrite H1. cbn [bind]. rewrite H2. cbn [bind snd b_width].
  unfold ufile. f_equal. f_equal. unfold ag_of. apply map_ext. intro a. rewrite unum_id. reflexivity.
Qed.

(** ** Reading *)
Variables (wd : Q).
Hypothesis Hwd : (wd == width)%Q.
Let f := ufile wd (nth 0 freq 0%Q).
Let r := open_uv f.
Let J := kept_date E par l.

Lemma ublk_ok : forall i, In i l -> ublk i <> [] /\ Forall (fun u => g_jd u = J i) (ublk i).
Proof.
  intros i Ii. split; [apply ublk_nonempty; auto|].
  unfold ublk, block. apply Forall_forall. intros u Iu. apply in_map_iff in Iu. destruct Iu as (x & <- & Ix). apply in_map_iff in Ix. destruct Ix as (y & <- & _). reflexivity.
Qed.
Lemma uJ_sorted : StronglySorted (fun a b => J a < J b)%Q l.
Proof. eapply sorted_impl; [|apply Hdates]. intros a b [_ H]. exact H. Qed.
Lemma ujds_ok : jds_uv (uf_gr f) = map g_jd blocks.
Proof. unfold jds_uv, f, ufile, groups_of. cbn [uf_gr gr_date gr_day]. rewrite zip_with_map. reflexivity. Qed.
Lemma utimes_ok : r_times r = map J l.
Proof.
  change (r_times r) with (unique (jds_uv (uf_gr f))). rewrite ujds_ok. unfold blocks.
  apply unique_blocks; [apply uJ_sorted|]. intros. apply ublk_ok. auto.
Qed.
Lemma upols_ok : r_pols r = codes.
Proof. change (r_pols r) with (map (fun k => uf_stk1 f + uf_cdelt f * k) (range 0 (uf_nstk f))). unfold f, ufile. cbn [uf_stk1 uf_cdelt uf_nstk]. apply axis_all. auto. Qed.
Lemma ufreq_eq : r_freq r = map (fun k => (inject_Z k * wd + nth 0 freq 0)%Q) (range 0 (Z.of_nat nchan)).
Proof. reflexivity. Qed.
Lemma ufreq_len : zlen (r_freq r) = Z.of_nat nchan.
Proof. rewrite ufreq_eq, zlen_map. unfold zlen, range. rewrite map_length, seq_length. lia. Qed.
Lemma ufreq_ok : Forall2 Qeq (r_freq r) freq.
Proof.
  rewrite ufreq_eq. destruct Hfreq as (_ & _ & _ & F). apply Forall_inv in F. destruct F as (L & Fb). rewrite <- L in Fb. rewrite <- L. unfold range. rewrite Z.sub_0_r, Nat2Z.id, map_map.
  assert (Rf : freq = map (fun j => nth j freq 0%Q) (seq 0 (length freq))).
  { apply nth_ext with 0%Q 0%Q; [rewrite map_length, seq_length; auto|]. intros j Hj.
    rewrite (nth_indep (map _ _) 0%Q ((fun j => nth j freq 0%Q) O)) by (rewrite map_length, seq_length; auto).
    rewrite (map_nth (fun j => nth j freq 0%Q)), seq_nth by auto. reflexivity. }
  match goal with |- Forall2 _ ?a _ => cut (Forall2 Qeq a (map (fun j => nth j freq 0%Q) (seq 0 (length freq)))); [intro K; rewrite <- Rf in K; exact K|] end.
  assert (G : forall s, Forall (fun j => (j < length freq)%nat) s -> Forall2 Qeq
    (map (fun x : nat => (inject_Z (0 + Z.of_nat x) * wd + nth 0 freq 0)%Q) s) (map (fun j => nth j freq 0%Q) s)).
  { induction s as [|j s IHs]; intro Fs; cbn [map]; constructor; [|apply IHs; eapply Forall_inv_tail; eauto].
    apply Forall_inv in Fs. change (0 + Z.of_nat j) with (Z.of_nat j). rewrite (Fb j) by auto. rewrite Hwd. ring. }
  apply G. apply Forall_forall. intros j Ij. apply in_seq in Ij. lia.
Qed.

Lemma ureader_ok : r_stands r = stands /\ r_ants r = antennas /\ forall s, In s stands -> dget (r_map r) s = Ok s.
Proof.
  destruct Hstands as (_ & Nd & F). unfold r, open_uv. cbn [r_stands r_ants r_map].
  assert (A1 : map snd (uf_an f) = stands) by (unfold f, ufile; cbn [uf_an]; rewrite map_map; reflexivity).
  assert (A2 : map (fun r => fst (fst r)) (uf_an f) = map (fun a => clip 8 (get_name Uv (fst a))) antennas) by (unfold f, ufile; cbn [uf_an]; rewrite map_map; reflexivity).
  rewrite A1, A2, (uv_names _ fst) by auto. fold stands.
  assert (Sc : map snd (combine stands stands) = stands).
  { rewrite <- (map_id stands) at 1 2. rewrite combine_map, map_map. cbn [snd]. apply map_id. }
  rewrite Sc. split; [reflexivity|]. split.
  - assert (Za : zip_with (fun (r : str * X * Z) (act : Z) => (act, snd (fst r))) (uf_an f) stands = antennas).
    { unfold f, ufile, stands. cbn [uf_an]. rewrite zip_with_map. cbn [fst snd]. rewrite <- (map_id antennas) at 2. apply map_ext. intros [a b]. auto. }
    rewrite Za. apply find_all. exact Nd.
  - intros s Is. assert (C : combine stands stands = map (fun s => (s, s)) stands).
    { rewrite <- (map_id stands) at 1 2. apply combine_map. }
    rewrite C. apply fold_dset_in.
    + rewrite map_map. cbn [fst]. rewrite map_id. exact Nd.
    + apply in_map_iff. exists s. auto.
Qed.

Lemma uselect_ok : forall A (proj : @grow V U -> A) i, In i l ->
  take (map proj blocks) (where_ (map (fun q => Qeq_bool q (J i)) (jds_uv (uf_gr f)))) = Ok (map proj (ublk i)).
Proof.
  intros A proj i Ii. rewrite ujds_ok, map_map. rewrite take_map, take_where. cbn [bind]. apply f_equal, f_equal.
  destruct (in_split i l Ii) as (a & b & Eq). unfold blocks. rewrite Eq at 1. rewrite flat_map_app, filter_app.
  cbn [flat_map]. rewrite filter_app.
  assert (Dec : forall j u, In j l -> In u (ublk j) -> ~ (J j == J i)%Q -> Qeq_bool (g_jd u) (J i) = false).
  { intros j u Ij Iu N. destruct (ublk_ok j Ij) as (_ & F). rewrite Forall_forall in F. rewrite (F u Iu).
    destruct (Qeq_bool (J j) (J i)) eqn:K; auto. apply Qeq_bool_iff in K. contradiction. }
  assert (Js' : StronglySorted (fun x y => J x < J y)%Q (a ++ i :: b)) by (rewrite <- Eq; apply uJ_sorted).
  assert (Sa : forall j, In j a -> (J j < J i)%Q).
  { intros j Ij. apply (sorted_left _ J a i b); auto. }
  assert (Sb : forall j, In j b -> (J i < J j)%Q).
  { intros j Ij. apply (sorted_right _ J a i b); auto. }
  rewrite (flat_filter_none _ _ _ _ a), (flat_filter_none _ _ _ _ b).
  - rewrite app_nil_r. cbn [app]. apply filter_all. intros u Iu. destruct (ublk_ok i Ii) as (_ & F). rewrite Forall_forall in F.
    rewrite (F u Iu). apply Qeq_bool_iff. reflexivity.
  - intros j u Ij Iu. apply (Dec j u); auto; [rewrite Eq; apply in_or_app; right; right; auto|]. specialize (Sb j Ij). lra.
  - intros j u Ij Iu. apply (Dec j u); auto; [rewrite Eq; apply in_or_app; left; auto|]. specialize (Sa j Ij). lra.
Qed.

Lemma usplit_ok : forall b, In (fst b) stands -> In (snd b) stands -> split_uvfits (re (packed 16 num b)) = (fst b, snd b).
Proof.
  intros b H1 H2. apply in_short in H1. apply in_short in H2. unfold packed, num. rewrite re_ok by lia. apply split_merge_uvfits; lia.
Qed.
Lemma ukeep_ok : forall auto rows j, Forall (fun x : row => In (fst (fst x)) stands /\ In (snd (fst x)) stands) rows ->
  exists kept, keep_groups r auto j (map (fun x => re (packed 16 num (fst x))) rows) = Ok kept /\
    map snd kept = map snd (filter fst (enumerate_from j (map (keep auto) rows))) /\
    Forall2 (fun b x => is_stand stands (fst b) (fst (fst x)) /\ is_stand stands (snd b) (snd (fst x))) (map fst kept) (filter (keep auto) rows).
Proof.
  intros auto rows. destruct ureader_ok as (Rs & _ & Rm). induction rows as [|x rows IH]; intros j F; cbn [map keep_groups enumerate_from filter].
  - exists []. split; [reflexivity|]. split; [reflexivity|constructor].
  - inversion F as [|? ? (H1 & H2) F']; subst. rewrite usplit_ok by auto. rewrite !Rm by auto. cbn [bind].
    destruct (IH (j + 1) F') as (kept & K1 & K2 & K3).
    assert (D : ((fst (fst x) =? snd (fst x)) && negb auto) = negb (keep auto x)) by (unfold keep; destruct auto, (fst (fst x) =? snd (fst x)); reflexivity).
    rewrite D. cbn [fst]. destruct (keep auto x) eqn:C; cbn [negb].
    + rewrite Rs. destruct (list_index_ok _ Z.eqb Z.eqb_eq stands (fst (fst x)) H1) as (ri & -> & Hri).
      destruct (list_index_ok _ Z.eqb Z.eqb_eq stands (snd (fst x)) H2) as (rj & -> & Hrj). rewrite K1. cbn [bind].
      exists (((ri, rj), j) :: kept). split; [reflexivity|]. cbn [map fst snd]. rewrite K2. split; [reflexivity|]. constructor; [|exact K3]. split; auto.
    + exists kept. auto.
Qed.
Lemma urows_known : forall i, In i l -> Forall (fun x : row => In (fst (fst x)) stands /\ In (snd (fst x)) stands) (sorted_rows 16 num i).
Proof.
  intros i Ii. destruct (urows_ok i Ii) as (_ & Pm & _). destruct (uin_ok i Ii) as (_ & _ & F).
  apply (Permutation_Forall Pm). eapply Forall_impl; [|apply F]. intros x (H1 & H2 & _). auto.
Qed.
Lemma urows_good : forall i, In i l -> Forall (good_row codes nchan) (sorted_rows 16 num i).
Proof.
  intros i Ii. destruct (urows_ok i Ii) as (_ & Pm & _). destruct (uin_ok i Ii) as (_ & _ & F).
  apply (Permutation_Forall Pm). eapply Forall_impl; [|apply F]. intros x (_ & _ & H). exact H.
Qed.
Lemma unames_len : length names = n.
Proof. unfold n. symmetry. eapply forall2_len; eauto. Qed.
Lemma uname_at : forall p, (p < n)%nat -> numeric_stokes (nth p codes 0) = Ok (nth p names ""%string).
Proof.
  intros p Hp. unfold n in Hp. clear - Hnames Hp. revert p Hp. induction Hnames as [|c nm cs nms H F IH]; intros p Hp; simpl in *; [lia|].
  destruct p as [|p]; [apply code_name_ok; auto|]. apply IH; auto. lia.
Qed.

Lemma uget_ok : forall j i auto, nth_error l j = Some i ->
  exists d es, get_data_set_uv E r f (Z.of_nat j + 1) auto = Ok d /\
    s_jd d = J i /\ s_freq d = r_freq r /\ s_center d = (clip 16 (fst (center_of E i)), snd (center_of E i)) /\
    s_int d = map (fun _ => par 0 (i_length i)) (i_rows i) /\
    Permutation es (entries_of E n (Z.of_nat nchan) auto (unweighted i)) /\ says stands names d es.
Proof.
  intros j i auto Hj. assert (Ii : In i l) by (eapply nth_error_In; eauto).
  destruct (urows_ok i Ii) as (Tk & Pm & Ll). pose proof (urows_good i Ii) as Gd. rewrite Forall_forall in Gd.
  set (pr := sorted_rows 16 num i) in *.
  destruct (ukeep_ok auto pr 0 (urows_known i Ii)) as (kept & K1 & K2 & K3).
  destruct (usource_at i Ii) as (N0 & Ns).
  assert (Tg : py_index (r_times r) (Z.of_nat j + 1 - 1) = Ok (J i)).
  { rewrite utimes_ok, py_index_map. replace (Z.of_nat j + 1 - 1) with (Z.of_nat j) by lia.
    assert (B : (j < length l)%nat) by (apply nth_error_Some; congruence).
    rewrite (py_index_ok i) by (unfold zlen; lia). unfold znth. destruct (Z.ltb_spec (Z.of_nat j) 0); [lia|]. rewrite Nat2Z.id.
    rewrite (nth_error_nth _ _ _ Hj). reflexivity. }
  assert (Sel : forall A (g : row -> A), take (map g pr) (map snd kept) = Ok (map g (filter (keep auto) pr))).
  { intros A g. rewrite take_map, K2. change (map snd (filter fst (enumerate_from 0 (map (keep auto) pr)))) with (where_ (map (keep auto) pr)). rewrite take_where. reflexivity. }
  assert (Nb : pr <> []). { intro C. rewrite C in Ll. destruct (uin_ok i Ii) as (N & _). destruct (i_rows i); [congruence|discriminate]. }
  set (uv := fun x : row => to_group (uvrow_of E1 16 num codes nchan tbl i x)).
  assert (Bk : forall A (proj : @grow V U -> A), map proj (ublk i) = map (fun x => proj (uv x)) pr).
  { intros A proj. unfold ublk, block. rewrite !map_map. reflexivity. }
  exists (mkS (J i) (r_freq r) (map fst kept) (map (fun x => g_uvw (uv x)) (filter (keep auto) pr)) (clip 16 (fst (center_of E i)), snd (center_of E i))
      (map (fun _ => par 0 (i_length i)) (i_rows i))
      (map (fun p => (nth p names ""%string, map (fun x => map (v32 E) (fst (cell p x))) (filter (keep auto) pr), map (fun x => repeat (w1 E) nchan) (filter (keep auto) pr))) (seq 0 n))).
  exists (map (entry_of E n (Z.of_nat nchan) (unweighted i)) (filter (keep auto) pr)).
  split; [|split; [reflexivity|split; [reflexivity|split; [reflexivity|split; [reflexivity|split]]]]].
  - assert (Sc : forall A (c : list A) (proj : @grow V U -> A), c = map proj blocks ->
      take c (where_ (map (fun q => Qeq_bool q (J i)) (jds_uv (uf_gr f)))) = Ok (map (fun x => proj (uv x)) pr)).
    { intros A c proj ->. rewrite uselect_ok by auto. rewrite Bk. reflexivity. }
    unfold get_data_set_uv. rewrite Tg. cbn [bind]. cbv zeta.
    rewrite (Sc _ _ g_src) by reflexivity. cbn [bind]. rewrite (Sc _ _ g_bl) by reflexivity. cbn [bind]. rewrite (Sc _ _ g_jd) by apply ujds_ok. cbn [bind].
    rewrite (Sc _ _ g_int) by reflexivity. cbn [bind]. rewrite (Sc _ _ g_uvw) by reflexivity. cbn [bind]. rewrite (Sc _ _ g_vis) by reflexivity. cbn [bind].
    change (map (fun x => g_bl (uv x)) pr) with (map (fun x : row => re (packed 16 num (fst x))) pr). rewrite K1. cbn [bind].
    assert (J0 : py_index (map (fun x => g_jd (uv x)) pr) 0 = Ok (J i)). { destruct pr; [congruence|reflexivity]. }
    rewrite J0. cbn [bind].
    change (map (fun x => g_src (uv x)) pr) with (map (fun _ : row => src_no E1 tbl i + 1) pr). rewrite unique_z_const by auto.
    assert (Fs : py_index (uf_src f) (src_no E1 tbl i + 1 - 1) = Ok (clip 16 (fst (center_of E i)), snd (center_of E i))).
    { replace (src_no E1 tbl i + 1 - 1) with (src_no E1 tbl i) by lia. unfold f, ufile. cbn [uf_src]. rewrite py_index_map.
      assert (B : (Z.to_nat (src_no E1 tbl i) < length tbl)%nat) by (apply nth_error_Some; congruence).
      rewrite (py_index_ok (center_of E i)) by (unfold zlen; lia). unfold znth. destruct (Z.ltb_spec (src_no E1 tbl i) 0); [lia|].
      rewrite (nth_error_nth _ _ _ Ns). reflexivity. }
    rewrite Fs. cbn [bind]. rewrite !Sel. cbn [bind].
    rewrite ufreq_len, upols_ok. rewrite combine_range. fold n.
    rewrite map_map. cbn [fst snd].
    assert (Mi : map (fun x => g_int (uv x)) pr = map (fun _ => par 0 (i_length i)) (i_rows i)).
    { change (map (fun x => g_int (uv x)) pr) with (map (fun _ : row => par 0 (i_length i)) pr). rewrite <- !repeat_map, Ll. reflexivity. }
    rewrite Mi.
    rewrite (P_Base.collect_ok nat _ _ (fun p => (nth p names ""%string, map (fun x => map (v32 E) (fst (cell p x))) (filter (keep auto) pr), map (fun x => repeat (w1 E) nchan) (filter (keep auto) pr)))).
    + reflexivity.
    + intros p Ip. apply in_seq in Ip. rewrite uname_at by lia. cbn [bind]. apply f_equal. f_equal; [f_equal|].
      * rewrite map_map. apply map_ext_in. intros x Ix. apply filter_In in Ix. destruct Ix as (Ix & _). unfold uv, to_group, uvrow_of. cbn [g_vis t_flux].
        change (zlen codes) with (Z.of_nat n). fold n. change (v0 E) with (v0 E1).
        rewrite (fill_read _ _ n nchan (fun q => vis_of E1 q x)); [|apply (flux_filled E1 16 num codes nchan); auto|lia|apply (vis_len E1 16 num codes nchan); auto; fold n; lia].
        reflexivity.
      * rewrite map_map. rewrite Nat2Z.id. reflexivity.
  - unfold entries_of. assert (Ff : filter (wanted auto) (map (entry_of E n (Z.of_nat nchan) (unweighted i)) (i_rows i)) = map (entry_of E n (Z.of_nat nchan) (unweighted i)) (filter (keep auto) (i_rows i))) by apply filter_map_comm.
    change (i_rows (unweighted i)) with (i_rows i). rewrite Ff. apply Permutation_map, perm_filter. symmetry. auto.
  - split; [|split].
    + cbn [s_bl]. clear - K3. induction K3 as [|b x bs xs H K IH]; simpl; constructor; auto.
    + cbn [s_uvw]. rewrite map_map. reflexivity.
    + cbn [s_pols]. rewrite (combine_seq _ ""%string), map_map, unames_len. apply map_ext_in. intros p Ip. apply in_seq in Ip. cbn [fst snd].
      assert (Nth : forall x, nth p (snd (entry_of E n (Z.of_nat nchan) (unweighted i) x)) ([], []) = (map (v32 E) (fst (cell p x)), repeat (w1 E) nchan)).
      { intro x. unfold entry_of. cbn [snd unweighted i_weighted]. rewrite Nat2Z.id.
        rewrite (nth_indep _ _ ((fun p => (map (v32 E) (fst (cell p x)), repeat (w1 E) nchan)) O)) by (rewrite map_length, seq_length; lia).
        rewrite (map_nth (fun p => (map (v32 E) (fst (cell p x)), repeat (w1 E) nchan))), seq_nth by lia. reflexivity. }
      rewrite !map_map. f_equal; [f_equal|]; apply map_ext; intro x; rewrite Nth; reflexivity.
Qed.

(** ** The order of the groups *)
Lemma ubaseline : forall b, In (fst b) stands -> In (snd b) stands -> baseline_of (re (packed 16 num b)) b.
Proof.
  intros b H1 H2. apply in_short in H1. apply in_short in H2. unfold packed, num. rewrite re_ok by lia. unfold merge_uvfits, baseline_of.
  split; [lia|]. split; [lia|]. destruct (Z.ltb_spec 255 (fst b)), (Z.ltb_spec 255 (snd b)); cbn [orb]; lia.
Qed.
Lemma upacked_lt : forall a b, In (fst a) stands -> In (snd a) stands -> In (fst b) stands -> In (snd b) stands -> packed 16 num a < packed 16 num b ->
  fst a < fst b \/ (fst a = fst b /\ snd a < snd b).
Proof.
  intros a b A1 A2 B1 B2 H. apply in_short in A1. apply in_short in A2. apply in_short in B1. apply in_short in B2.
  apply (merge_bits_lt 16) in H; [|lia|simpl; unfold num; lia|simpl; unfold num; lia]. exact H.
Qed.
Lemma ublk_sorted : forall i, In i l -> StronglySorted (fun a b => exists s t, In (fst s) stands /\ In (snd s) stands /\ In (fst t) stands /\ In (snd t) stands /\
    g_bl a = re (packed 16 num s) /\ g_bl b = re (packed 16 num t) /\ (fst s < fst t \/ (fst s = fst t /\ snd s < snd t))) (ublk i).
Proof.
  intros i Ii. destruct (sorted_rows_ok 16 stands num ltac:(lia) unum_range unum_inj codes nchan i (uin_ok i Ii)) as (_ & _ & Ss & _).
  pose proof (urows_known i Ii) as K. unfold ublk, block. rewrite map_map. induction Ss as [|x rows Ss IH Fx]; cbn [map]; constructor; inversion K as [|? ? (K1 & K2) K']; subst; auto.
  apply Forall_forall. intros g Ig. apply in_map_iff in Ig. destruct Ig as (y & <- & Iy). rewrite Forall_forall in Fx, K'. destruct (K' y Iy) as (Y1 & Y2).
  exists (fst x), (fst y). split; [exact K1|]. split; [exact K2|]. split; [exact Y1|]. split; [exact Y2|]. split; [reflexivity|]. split; [reflexivity|].
  apply upacked_lt; auto.
Qed.
Lemma uorder : time_stands_order blocks /\ (Forall (fun s => s < 256) stands -> tb_order blocks) /\
  length blocks = fold_right Nat.add O (map (fun i => length (i_rows i)) l).
Proof.
  assert (Eqd : forall i a b, In i l -> In a (ublk i) -> In b (ublk i) -> (g_jd a == g_jd b)%Q).
  { intros i a b Ii Ia Ib. destruct (ublk_ok i Ii) as (_ & F). rewrite Forall_forall in F. rewrite (F a Ia), (F b Ib). reflexivity. }
  assert (Ltd : forall i j a b, In i l -> In j l -> (J i < J j)%Q -> In a (ublk i) -> In b (ublk j) -> (g_jd a < g_jd b)%Q).
  { intros i j a b Ii Ij H Ia Ib. destruct (ublk_ok i Ii) as (_ & F). destruct (ublk_ok j Ij) as (_ & G). rewrite Forall_forall in F, G. rewrite (F a Ia), (G b Ib). exact H. }
  assert (Sub : forall (Rr Q0 : @grow V U -> @grow V U -> Prop) m, StronglySorted Rr m -> (forall a b, In a m -> In b m -> Rr a b -> Q0 a b) -> StronglySorted Q0 m).
  { intros Rr Q0 m Hs. induction Hs as [|a m Hs IH F]; intro H; constructor.
    - apply IH. intros; apply H; auto; right; auto.
    - apply Forall_forall. intros b Ib. rewrite Forall_forall in F. apply H; auto; [left; auto|right; auto]. }
  split; [|split].
  - eapply sorted_flat; [apply uJ_sorted| |].
    + intros i Ii. eapply Sub; [apply (ublk_sorted i Ii)|]. intros a b Ia Ib (s & t & S1 & S2 & T1 & T2 & -> & -> & Lx). right. split; [eapply Eqd; eauto|].
      exists s, t. split; [apply ubaseline; auto|]. split; [apply ubaseline; auto|exact Lx].
    + intros i j a b Ii Ij H Ia Ib. left. exact (Ltd i j a b Ii Ij H Ia Ib).
  - intro Sm. eapply sorted_flat; [apply uJ_sorted| |].
    + intros i Ii. eapply Sub; [apply (ublk_sorted i Ii)|]. intros a b Ia Ib (s & t & S1 & S2 & T1 & T2 & Ea & Eb & Lx). right. split; [eapply Eqd; eauto|].
      rewrite Ea, Eb. pose proof (ubaseline s S1 S2) as (A1 & A2 & A3). pose proof (ubaseline t T1 T2) as (B1 & B2 & B3).
      rewrite Forall_forall in Sm. apply Sm in S1. apply Sm in S2. apply Sm in T1. apply Sm in T2. lia.
    + intros i j a b Ii Ij H Ia Ib. left. exact (Ltd i j a b Ii Ij H Ia Ib).
  - unfold blocks. assert (G : forall m, incl m l -> length (flat_map ublk m) = fold_right Nat.add O (map (fun i => length (i_rows i)) m)).
    { induction m as [|i m IH]; intro Im; simpl; auto. rewrite app_length, IH by (intros x Ix; apply Im; right; auto). f_equal.
      unfold ublk, block. rewrite !map_length. apply urows_ok. apply Im. left. auto. }
    apply G. apply incl_refl.
Qed.
End Main.
