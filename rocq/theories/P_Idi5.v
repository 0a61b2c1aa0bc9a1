(** A file holds the integrations that were written, and the reader returns them. *)
From Coq Require Import String.
From Coq Require Import List ZArith QArith Qabs Sorted Permutation Bool Lia Lqa.
From Verif Require Import M_Idi S_Idi P_Base P_Str P_Vis P_Vis2 P_Idi P_Idi2 P_Idi3 P_Idi4.
Import ListNotations.
Open Scope Z_scope.

(** ** Lists *)
Lemma sorted_app : forall A (R : A -> A -> Prop) a b, StronglySorted R a -> StronglySorted R b -> (forall x y, In x a -> In y b -> R x y) -> StronglySorted R (a ++ b).
Proof.
  induction a as [|x a IH]; intros b Ha Hb H; simpl; auto. inversion Ha as [|? ? H1 H2]; subst. constructor.
  - apply IH; auto. intros; apply H; auto. right. auto.
  - apply Forall_app. split; auto. apply Forall_forall. intros y I. apply H; auto. left. auto.
Qed.
Lemma sorted_impl : forall A (R S : A -> A -> Prop) l, (forall a b, R a b -> S a b) -> StronglySorted R l -> StronglySorted S l.
Proof. induction 2 as [|a m Sm IH F]; constructor; auto. eapply Forall_impl; [|apply F]. auto. Qed.
Lemma sorted_flat : forall A B (R : B -> B -> Prop) (S : A -> A -> Prop) (f : A -> list B) l, StronglySorted S l ->
  (forall a, In a l -> StronglySorted R (f a)) -> (forall a b x y, In a l -> In b l -> S a b -> In x (f a) -> In y (f b) -> R x y) -> StronglySorted R (flat_map f l).
Proof.
  induction l as [|a l IH]; intros Hs Hf Hr; simpl; [constructor|]. inversion Hs as [|? ? H1 H2]; subst. rewrite Forall_forall in H2.
  apply sorted_app.
  - apply Hf. left. auto.
  - apply IH; auto; [intros b Ib; apply Hf; right; auto|]. intros b c x y Ib Ic. apply Hr; right; auto.
  - intros x y Ix Iy. apply in_flat_map in Iy. destruct Iy as (b & Ib & Iy). eapply Hr; [left; auto|right; apply Ib| | |]; eauto.
Qed.
Lemma sorted_seq : forall B (R : B -> B -> Prop) (f : nat -> B) n, (forall p q, (p < q < n)%nat -> R (f p) (f q)) -> StronglySorted R (map f (seq 0 n)).
Proof.
  intros B R f n H. induction n as [|n IH]; [constructor|]. rewrite seq_S, map_app. apply sorted_app.
  - apply IH. intros. apply H. lia.
  - repeat constructor.
  - intros x y Ix [<-|[]]. apply in_map_iff in Ix. destruct Ix as (p & <- & Ip). apply in_seq in Ip. apply H. lia.
Qed.
Lemma forall2_len : forall A B (R : A -> B -> Prop) a b, Forall2 R a b -> length a = length b.
Proof. induction 1; simpl; congruence. Qed.
Lemma some_in : forall A (m : list A), m <> [] -> exists x, In x m.
Proof. intros A [|x m] H; [congruence|]. exists x. left. auto. Qed.
Lemma axis_all : forall codes, axis codes -> map (fun k => nth 0 codes 0 + step_of (nth 0 codes 0) * k) (range 0 (zlen codes)) = codes.
Proof. intros [|c l] Ax; [destruct Ax; congruence|]. apply axis_range. auto. Qed.
Lemma perm_filter : forall A (f : A -> bool) l m, Permutation l m -> Permutation (filter f l) (filter f m).
Proof.
  induction 1 as [|x l m Pm IH|x y l|l m k P1 IH1 P2 IH2]; simpl; auto.
  - destruct (f x); auto.
  - destruct (f x), (f y); auto. constructor.
  - etransitivity; eauto.
Qed.
Lemma flat_filter_none : forall A B (f : A -> list B) (g : B -> bool) l, (forall a x, In a l -> In x (f a) -> g x = false) -> filter g (flat_map f l) = [].
Proof.
  intros A B f g l H. induction l as [|a l IH]; simpl; auto. rewrite filter_app, IH by (intros; eapply H; eauto; right; auto).
  rewrite app_nil_r. assert (K : forall x, In x (f a) -> g x = false) by (intros; eapply H; eauto; left; auto).
  clear - K. induction (f a) as [|x m IH]; simpl; auto. rewrite K by (left; auto). apply IH. intros; apply K; right; auto.
Qed.
Lemma filter_all : forall A (g : A -> bool) l, (forall x, In x l -> g x = true) -> filter g l = l.
Proof. induction l as [|x l IH]; intro H; simpl; auto. rewrite H by (left; auto). f_equal. apply IH. intros; apply H; right; auto. Qed.
Lemma combine_seq : forall A (d : A) l, combine (seq 0 (length l)) l = map (fun p => (p, nth p l d)) (seq 0 (length l)).
Proof.
  intros A d l. assert (G : forall l k, combine (seq k (length l)) l = map (fun p => (p, nth (p - k) l d)) (seq k (length l))).
  { clear l. induction l as [|x l IH]; intro k; auto. cbn [length seq combine map]. rewrite Nat.sub_diag. cbn [nth]. f_equal.
    rewrite IH. apply map_ext_in. intros p Ip. apply in_seq in Ip. replace (p - k)%nat with (S (p - S k)) by lia. reflexivity. }
  rewrite G. apply map_ext. intro p. rewrite Nat.sub_0_r. auto.
Qed.
Lemma combine_range : forall l : list Z, combine (range 0 (zlen l)) l = map (fun p => (Z.of_nat p, nth p l 0)) (seq 0 (length l)).
Proof.
  intro l. unfold range, zlen. rewrite Z.sub_0_r, Nat2Z.id.
  assert (G : forall s (m : list Z), combine (map (fun k => 0 + Z.of_nat k) s) m = map (fun a => (Z.of_nat (fst a), snd a)) (combine s m)).
  { induction s as [|x s IH]; intros [|y m]; simpl; auto. f_equal; auto. }
  rewrite G, (combine_seq _ 0), map_map. reflexivity.
Qed.

(** ** The dates *)
Lemma insert_block : forall A (f : A -> Q) rs x L, rs <> [] -> Forall (fun r => f r = x) rs -> Forall (fun y => x < y)%Q L ->
  fold_right insert_unique L (map f rs) = x :: L.
Proof.
  intros A f rs x L. induction rs as [|r rs IH]; intros N F G; [congruence|]. inversion F as [|? ? Fr F']; subst. simpl.
  destruct rs as [|r' rs].
  - simpl. destruct L as [|y L]; auto. simpl. inversion G; subst. rewrite (proj1 (Qlt_alt _ _)) by auto. auto.
  - rewrite IH; auto; [|discriminate]. simpl. rewrite (proj1 (Qeq_alt _ _)) by reflexivity. auto.
Qed.
Lemma unique_blocks : forall A B (J : A -> Q) (f : B -> Q) (bl : A -> list B) l, StronglySorted (fun a b => J a < J b)%Q l ->
  (forall a, In a l -> bl a <> [] /\ Forall (fun r => f r = J a) (bl a)) -> unique (map f (flat_map bl l)) = map J l.
Proof.
  intros A B J f bl l. unfold unique. induction l as [|a l IH]; intros Hs H; simpl; auto. inversion Hs as [|? ? H1 H2]; subst.
  rewrite map_app, fold_right_app, IH; auto; [|intros; apply H; right; auto].
  destruct (H a (or_introl eq_refl)) as (N & F). apply insert_block; auto.
  apply Forall_forall. intros y Iy. apply in_map_iff in Iy. destruct Iy as (b & <- & Ib). rewrite Forall_forall in H2. auto.
Qed.

Section Main.
Context {V W U P X : Type} (E : sky V W U P).
Notation integration := (@integration V W P).
Notation row := ((Z * Z) * list (list V * list W))%type.

Variables (k : kind) (mode : string) (pols : list polarization) (codes : list Z) (names : list string).
Variables (width : Q) (nchan : nat) (bands : list (list Q)) (antennas : list (Z * X)).
Variables (l : list integration) (calls : list (@call V W P)).
Let n := length codes.
Let stands := map fst antennas.
Let ncol := (nchan * length bands)%nat.

Hypothesis Hmode : plain_mode k mode.
Hypothesis Haxis : axis codes.
Hypothesis Hpols : names_axis pols codes.
Hypothesis Hnames : Forall2 (fun c nm => code_name c = Some nm) codes names.
Hypothesis Hbands : regular width nchan bands.
Hypothesis Hstands : numbered k stands.
Hypothesis Hl : l <> [].
Hypothesis Hcomplete : Forall (complete stands n (Z.of_nat ncol)) l.
Hypothesis Hlayout : same_layout l.
Hypothesis Hsources : one_position_per_name E l.
Hypothesis Htime : in_order E l.
Hypothesis Hcalls : calls_of codes l calls.
Hypothesis Hconj : forall v, conj E (v32 E (conj E v)) = v32 E v.

Let Hk : some_kind k := plain_some k mode Hmode.
Let num := num k antennas.
Let tbl := fold_left (add_source E) l [].
Let blocks := flat_map (block E (bit_shift k) num codes ncol tbl) l.

Lemma n_pos : (0 < n)%nat.
Proof. unfold n. destruct Haxis as (N & _). destruct codes; [congruence|]. simpl. lia. Qed.
Lemma codes_nodup : NoDup codes.
Proof. apply axis_nodup. auto. Qed.

Lemma data_sorted : StronglySorted ds_lt (flat_map (fun i => map (ds codes i) (seq 0 n)) l).
Proof.
  eapply sorted_flat; [apply Htime| |].
  - intros i Ii. apply sorted_seq. intros p q Hpq. right. split; [reflexivity|]. apply (axis_abs codes p q Haxis). auto.
  - intros i j x y Ii Ij [H _] Ix Iy. apply in_map_iff in Ix. destruct Ix as (p & <- & _). apply in_map_iff in Iy. destruct Iy as (q & <- & _).
    left. exact H.
Qed.

Definition to_ds (c : @call V W P) : dataset V W P := ds_of_call c (match c_pol c with Code x => x | Named _ => 0 end).
Lemma calls_data : exists data, Forall2 (fun c d => exists code, code_of (c_pol c) = Ok code /\ d = ds_of_call c code) calls data /\
  Permutation data (flat_map (fun i => map (ds codes i) (seq 0 n)) l).
Proof.
  destruct Hcalls as (calls' & F & Pm). exists (map to_ds calls'). split.
  - clear - F. induction F as [|c c' cs cs' (Hc & code & Hp & Hs) F IH]; simpl; constructor; auto.
    exists code. split; [apply stands_for_ok; auto|]. unfold to_ds. rewrite Hp. rewrite Hc. reflexivity.
  - etransitivity; [apply Permutation_map; apply Pm|]. clear. replace (map to_ds (flat_map (calls_for codes) l)) with (flat_map (fun i => map (ds codes i) (seq 0 n)) l); auto.
    induction l as [|i m IH]; simpl; auto. rewrite map_app, <- IH. f_equal. unfold calls_for. rewrite map_map. reflexivity.
Qed.

Lemma sources_listed : Forall (listed E tbl) l.
Proof.
  apply Forall_forall. intros i Ii. unfold listed. destruct Hsources as (_ & Z). destruct (sources_ok E l [] Z) as (_ & H & _); auto.
Qed.
Lemma source_at : forall i, In i l -> 0 <= src_no E tbl i /\ nth_error tbl (Z.to_nat (src_no E tbl i)) = Some (center_of E i).
Proof.
  intros i Ii. pose proof sources_listed as L. rewrite Forall_forall in L. specialize (L i Ii). unfold listed in L.
  unfold src_no. destruct (list_index_ok _ str_eqb str_eqb_iff _ _ L) as (j & -> & J0 & Hj). split; auto.
  rewrite nth_error_map in Hj. destruct (nth_error tbl (Z.to_nat j)) as [e|] eqn:Ne; [|discriminate]. simpl in Hj. injection Hj as Hj.
  destruct Hsources as (One & Z). destruct (sources_ok E l [] Z) as (_ & _ & H3); auto.
  assert (Ie : In e (fold_left (add_source E) l [])) by (apply nth_error_In in Ne; exact Ne).
  destruct (H3 e Ie) as [[]|(j' & Ij & Ej)]. subst e. f_equal.
  apply injective_projections; [exact Hj|apply One; auto].
Qed.

Definition file_of (ref : Q) (fs : list band) : fits V W U P X :=
  mkF (lwatype k ++ mode)%string (ag_of k antennas) (map_of k antennas) (map (fun r => (clip 16 (fst r), snd r)) tbl)
      (map (fun b => (b_off b, q32 E (b_width b))) fs) ref (Z.of_nat nchan) (zlen codes) (nth 0 codes 0) (step_of (nth 0 codes 0)) (table_of blocks).

Lemma write_ok : exists ref fs, write_file E k mode pols bands antennas calls = Ok (file_of ref fs) /\ Forall2 (fits_band ref width) bands fs.
Proof.
  pose proof n_pos as Np. pose proof codes_nodup as Nd.
  destruct (set_frequency_ok (V := V) (W := W) (P := P) (X := X) width nchan bands k mode codes Hbands) as (ref & wd & fs & Hf & Ff).
  destruct calls_data as (data & Fd & Pd). exists ref, fs. split; auto.
  destruct Hstands as (S0 & S1 & S2 & S3).
  assert (Hg : set_geometry (mkWr k mode codes (zlen codes) (Z.of_nat nchan) ref wd fs [] [] : writer V W P X) antennas =
     (mkWr k mode codes (zlen codes) (Z.of_nat nchan) ref wd fs [mkG antennas (build_mapper (max_ants k <? fold_right Z.max 0 stands) 0 stands []) (max_ants k <? fold_right Z.max 0 stands)] [], Ok tt)).
  { unfold set_geometry. cbn [w_kind w_array]. unfold stands in S3. rewrite zlen_map in S3.
    destruct (Z.ltb_spec (max_ants k) (zlen antennas)); [lia|]. unfold stands. destruct antennas as [|a ants]; [exfalso; apply S0; reflexivity|]. reflexivity. }
  assert (T : forall (a : writer V W P X) g, then_ (a, Ok tt) g = g a) by reflexivity.
  unfold write_file. cbv zeta. rewrite T, (set_stokes_ok k mode pols codes Haxis Hpols), Hf, T, Hg.
  rewrite (add_calls_ok _ _ _ _ _ _ _ _ _ _ _ _ Fd). cbn [snd fst app]. unfold write. cbn [w_nstokes w_freq w_array w_data w_stokes w_kind w_nchan w_ref w_mode].
  assert (Zc : zlen codes <> 0) by (unfold zlen; fold n; lia).
  destruct (Z.eqb_spec (zlen codes) 0); [congruence|].
  assert (Lf : length fs = length bands) by (symmetry; eapply forall2_len; eauto).
  destruct (Z.eqb_spec (zlen fs) 0) as [C|C].
  { apply zlen_0 in C. subst fs. destruct Hbands as (B0 & _). exfalso. apply B0. apply length_zero_iff_nil. auto. }
  assert (Sd : sort_ds data = flat_map (fun i => map (ds codes i) (seq 0 n)) l) by (apply sort_ds_of; auto using data_sorted).
  assert (Full : forall p, (p < n)%nat -> exists i, In (ds codes i p) (flat_map (fun i => map (ds codes i) (seq 0 n)) l)).
  { intros p Hp. destruct (some_in _ l Hl) as (i & Ii). exists i. apply in_flat_map. exists i. split; [auto|]. apply in_map. apply in_seq. lia. }
  destruct (Z.eqb_spec (zlen data) 0) as [D|D].
  { apply zlen_0 in D. subst data. destruct (Full O Np) as (i & Ii). apply (Permutation_in _ (Permutation_sym Pd)) in Ii. destruct Ii. }
  cbn [snd]. pose proof (write_geometry_ok k antennas Hstands) as Wg.
  fold stands in Wg. rewrite Wg. cbn [bind].
  rewrite (py_index_ok 0) by (unfold zlen; fold n; lia). cbn [bind]. change (znth 0 0 codes) with (nth 0 codes 0).
  rewrite Sd. rewrite (table_all E codes Nd Np). fold tbl.
  replace (Z.of_nat nchan * zlen fs) with (Z.of_nat ncol) by (unfold zlen, ncol; rewrite Lf; lia).
  destruct (kind_max k antennas Hk) as (_ & Sh).
  destruct (loop_all E (read_array_mapper (map_of k antennas)) (bit_shift k) stands num Sh
              (mapped_ok k antennas Hstands) (num_range k antennas Hk Hstands) (num_inj k antennas Hstands) codes ncol Nd Np tbl str_eqb_iff l
              Hlayout Hcomplete sources_listed) as (st & Hst & Hu).
  fold n in Hst. rewrite Hst. cbn [bind]. rewrite Hu.
  assert (Last : zlen (filter (fun d => d_pol d =? last codes 0) (flat_map (fun i => map (ds codes i) (seq 0 n)) l)) <> 0).
  { intro C0. apply zlen_0 in C0. destruct (Full (n - 1)%nat) as (i & Ii); [lia|].
    assert (If : In (ds codes i (n - 1)) (filter (fun d => d_pol d =? last codes 0) (flat_map (fun i => map (ds codes i) (seq 0 n)) l))).
    { apply filter_In. split; auto. cbn [ds d_pol]. apply Z.eqb_eq. symmetry. apply last_code. }
    rewrite C0 in If. destruct If. }
  destruct (Z.eqb_spec (zlen (filter (fun d => d_pol d =? last codes 0) (flat_map (fun i => map (ds codes i) (seq 0 n)) l))) 0); [congruence|].
  reflexivity.
Qed.

(** ** Reading *)
Variables (ref : Q) (fs : list band).
Hypothesis Hfs : Forall2 (fits_band ref width) bands fs.
Let f := file_of ref fs.
Let r := open_idi f.

Definition J (i : integration) : Q := (day0 E (i_time i) + (utcjd E (i_time i) - day0 E (i_time i)))%Q.
Definition jd (u : @uvrow V W U) : Q := (t_date u + t_time u)%Q.
Definition blk (i : integration) : list (@uvrow V W U) := block E (bit_shift k) num codes ncol tbl i.
Lemma J_eq : forall i, (J i == utcjd E (i_time i))%Q.
Proof. intro i. unfold J. ring. Qed.
Lemma J_sorted : StronglySorted (fun a b => J a < J b)%Q l.
Proof. eapply sorted_impl; [|apply Htime]. intros a b [_ H]. cbn beta. rewrite !J_eq. auto. Qed.
Lemma in_ok : forall i, In i l -> ok stands codes ncol i.
Proof. intros i Ii. rewrite Forall_forall in Hcomplete. apply Hcomplete. auto. Qed.
Lemma rows_ok : forall i, In i l ->
  take (i_rows i) (order_of (bit_shift k) num i) = Ok (sorted_rows (bit_shift k) num i) /\ Permutation (i_rows i) (sorted_rows (bit_shift k) num i) /\
  length (sorted_rows (bit_shift k) num i) = length (i_rows i).
Proof.
  intros i Ii. destruct (kind_max k antennas Hk) as (_ & Sh).
  destruct (sorted_rows_ok (bit_shift k) stands num Sh (num_range k antennas Hk Hstands) (num_inj k antennas Hstands)
    codes ncol i (in_ok i Ii)) as (H1 & H2 & _ & _ & H5). auto.
Qed.
Lemma blk_ok : forall i, In i l -> blk i <> [] /\ Forall (fun u => jd u = J i) (blk i).
Proof.
  intros i Ii. destruct (rows_ok i Ii) as (_ & _ & L). split.
  - destruct (in_ok i Ii) as (N & _). unfold blk, block. destruct (sorted_rows (bit_shift k) num i); [|discriminate].
    simpl in L. destruct (i_rows i); [congruence|discriminate].
  - unfold blk, block. apply Forall_forall. intros u Iu. apply in_map_iff in Iu. destruct Iu as (x & <- & _). reflexivity.
Qed.
Lemma jds_ok : jds (f_uv f) = map jd blocks.
Proof. unfold jds, f, file_of, table_of. cbn [f_uv u_date u_time]. rewrite zip_with_map. reflexivity. Qed.
Lemma times_ok : r_times r = map J l.
Proof.
  unfold r, open_idi. destruct (match f_map f with Some _ => _ | None => _ end) as ((a & b) & c). cbn [r_times]. rewrite jds_ok. unfold blocks.
  apply unique_blocks; [apply J_sorted|]. intros. apply blk_ok. auto.
Qed.
Lemma pols_ok : r_pols r = codes.
Proof.
  unfold r, open_idi. destruct (match f_map f with Some _ => _ | None => _ end) as ((a & b) & c'). cbn [r_pols].
  unfold f, file_of. cbn [f_stk1 f_cdelt f_nstk]. apply axis_all. auto.
Qed.
Lemma freq_eq : r_freq r = flat_map (fun b => map (fun j => (inject_Z j * snd b + (ref + fst b))%Q) (range 0 (Z.of_nat nchan))) (map (fun b => (b_off b, q32 E (b_width b))) fs).
Proof. unfold r, open_idi. destruct (match f_map f with Some _ => _ | None => _ end) as ((a & b) & c). reflexivity. Qed.
Lemma freq_len : zlen (r_freq r) = Z.of_nat ncol.
Proof.
  rewrite freq_eq. assert (L : length fs = length bands) by (symmetry; eapply forall2_len; eauto). unfold ncol. rewrite <- L. clear.
  unfold zlen. apply f_equal. induction fs as [|b m IH]; simpl; [lia|]. rewrite app_length, IH, map_length.
  unfold range. rewrite map_length, seq_length. lia.
Qed.
Lemma freq_ok : (forall x, x == width -> q32 E x == width)%Q -> Forall2 Qeq (r_freq r) (concat bands).
Proof.
  intro Hq. rewrite freq_eq. destruct Hbands as (_ & _ & _ & F). clear - Hq F Hfs.
  induction Hfs as [|b bd bs bds (Ho & Hw) H IH]; simpl; [constructor|]. inversion F as [|? ? (L & Fb) F']; subst.
  apply Forall2_app; [|apply IH; auto]. unfold range. rewrite Z.sub_0_r, Nat2Z.id, map_map.
  assert (R : b = map (fun j => nth j b 0%Q) (seq 0 (length b))).
  { apply nth_ext with 0%Q 0%Q; [rewrite map_length, seq_length; auto|]. intros j Hj.
    rewrite (nth_indep (map _ _) 0%Q ((fun j => nth j b 0%Q) O)) by (rewrite map_length, seq_length; auto).
    rewrite (map_nth (fun j => nth j b 0%Q)), seq_nth by auto. reflexivity. }
  rewrite R at 2. assert (G : forall s, Forall (fun j => (j < length b)%nat) s -> Forall2 Qeq
    (map (fun x : nat => (inject_Z (0 + Z.of_nat x) * snd (b_off bd, q32 E (b_width bd)) + (ref + fst (b_off bd, q32 E (b_width bd))))%Q) s) (map (fun j => nth j b 0%Q) s)).
  { induction s as [|j s IHs]; intro Fs; simpl; constructor; inversion Fs; subst; auto.
    cbn [fst snd]. rewrite Fb by auto. rewrite <- Ho. rewrite (Hq _ Hw). ring. }
  apply G. apply Forall_forall. intros j Ij. apply in_seq in Ij. lia.
Qed.

(** One column of the rows of an integration *)
Lemma select_ok : forall A (proj : @uvrow V W U -> A) i, In i l ->
  take (map proj blocks) (where_ (map (fun q => Qeq_bool q (J i)) (jds (f_uv f)))) = Ok (map proj (blk i)).
Proof.
  intros A proj i Ii. rewrite jds_ok, map_map. rewrite take_map, take_where. cbn [bind]. apply f_equal, f_equal.
  destruct (in_split i l Ii) as (a & b & Eq). unfold blocks. rewrite Eq at 1. rewrite flat_map_app, filter_app.
  pose proof J_sorted as Js. rewrite Eq in Js. cbn [flat_map]. rewrite filter_app.
  assert (Dec : forall j u, In j l -> In u (blk j) -> ~ (J j == J i)%Q -> Qeq_bool (jd u) (J i) = false).
  { intros j u Ij Iu N. destruct (blk_ok j Ij) as (_ & F). rewrite Forall_forall in F. rewrite (F u Iu).
    destruct (Qeq_bool (J j) (J i)) eqn:K; auto. apply Qeq_bool_iff in K. contradiction. }
  assert (Sa : forall j, In j a -> (J j < J i)%Q).
  { intros j Ij. clear - Js Ij. induction a as [|x a IH]; [destruct Ij|]. simpl in Js. inversion Js as [|? ? H1 H2]; subst.
    destruct Ij as [->|Ij]; [|auto]. rewrite Forall_forall in H2. apply H2. apply in_or_app. right. left. auto. }
  assert (Sb : forall j, In j b -> (J i < J j)%Q).
  { intros j Ij. clear - Js Ij. induction a as [|x a IH]; simpl in Js; inversion Js as [|? ? H1 H2]; subst; auto.
    rewrite Forall_forall in H2. apply H2. auto. }
  rewrite (flat_filter_none _ _ _ _ a), (flat_filter_none _ _ _ _ b).
  - rewrite app_nil_r. cbn [app]. apply filter_all. intros u Iu. destruct (blk_ok i Ii) as (_ & F). rewrite Forall_forall in F.
    rewrite (F u Iu). apply Qeq_bool_iff. reflexivity.
  - intros j u Ij Iu. apply (Dec j u); auto; [rewrite Eq; apply in_or_app; right; right; auto|]. specialize (Sb j Ij). lra.
  - intros j u Ij Iu. apply (Dec j u); auto; [rewrite Eq; apply in_or_app; left; auto|]. specialize (Sa j Ij). lra.
Qed.

(** The rows that are kept *)
Lemma ext_ok : r_extended r = (bit_shift k =? 16).
Proof.
  unfold r, open_idi. destruct (match f_map f with Some _ => _ | None => _ end) as ((a & b) & c). cbn [r_extended].
  unfold f, file_of. cbn [f_type]. apply (extended_ok k mode Hmode).
Qed.
Lemma unpack_ok : forall b, In (fst b) stands -> In (snd b) stands -> unpack (r_extended r) (packed (bit_shift k) num b) = (num (fst b), num (snd b)).
Proof.
  intros b H1 H2. rewrite ext_ok. pose proof (num_range k antennas Hk Hstands) as R. destruct (kind_max k antennas Hk) as (_ & Sh).
  pose proof (split_merge_bits (bit_shift k) (num (fst b)) (num (snd b)) Sh (R _ H1) (R _ H2)) as S.
  unfold packed, merge_baseline. unfold merge_bits in S. rewrite <- S. unfold unpack, split_bits.
  assert (G : bit_shift k = 8 \/ bit_shift k = 16) by (destruct Hk as [H|[H|H]]; rewrite H; auto).
  destruct G as [G|G]; rewrite G; reflexivity.
Qed.
Lemma reader_ok : r_stands r = stands /\ r_ants r = antennas /\ forall s, In s stands -> dget (r_map r) (num s) = Ok s.
Proof.
  destruct (open_ok k antennas Hk Hstands (V := V) (W := W) (U := U) (P := P) (lwatype k ++ mode)%string (map (fun r => (clip 16 (fst r), snd r)) tbl)
    (map (fun b => (b_off b, q32 E (b_width b))) fs) ref (Z.of_nat nchan) (zlen codes) (nth 0 codes 0) (step_of (nth 0 codes 0)) (table_of blocks)) as (H1 & H2 & H3).
  split; [exact H1|]. split; [exact H2|]. intros s Is. change (r_map r) with (r_map (open_idi f)). unfold f, file_of. rewrite H3. apply (map_get k antennas Hstands). auto.
Qed.
Definition keep (auto : bool) (x : row) : bool := auto || negb (fst (fst x) =? snd (fst x)).
Lemma keep_ok : forall auto rows j, Forall (fun x : row => In (fst (fst x)) stands /\ In (snd (fst x)) stands) rows ->
  exists kept, keep_rows r auto j (map (fun x => packed (bit_shift k) num (fst x)) rows) = Ok kept /\
    map snd kept = map snd (filter fst (enumerate_from j (map (keep auto) rows))) /\
    Forall2 (fun b x => is_stand stands (fst b) (fst (fst x)) /\ is_stand stands (snd b) (snd (fst x))) (map fst kept) (filter (keep auto) rows).
Proof.
  intros auto rows. destruct reader_ok as (Rs & _ & Rm). induction rows as [|x rows IH]; intros j F; cbn [map keep_rows enumerate_from filter].
  - exists []. split; [reflexivity|]. split; [reflexivity|constructor].
  - inversion F as [|? ? (H1 & H2) F']; subst. rewrite unpack_ok by auto. rewrite !Rm by auto. cbn [bind].
    destruct (IH (j + 1) F') as (kept & K1 & K2 & K3).
    assert (D : ((fst (fst x) =? snd (fst x)) && negb auto) = negb (keep auto x)) by (unfold keep; destruct auto, (fst (fst x) =? snd (fst x)); reflexivity).
    rewrite D. cbn [fst]. destruct (keep auto x) eqn:C; cbn [negb].
    + rewrite Rs. destruct (list_index_ok _ Z.eqb Z.eqb_eq stands (fst (fst x)) H1) as (ri & -> & Hri).
      destruct (list_index_ok _ Z.eqb Z.eqb_eq stands (snd (fst x)) H2) as (rj & -> & Hrj). rewrite K1. cbn [bind].
      exists (((ri, rj), j) :: kept). split; [reflexivity|]. cbn [map fst snd]. rewrite K2. split; [reflexivity|]. constructor; [|exact K3]. split; auto.
    + exists kept. auto.
Qed.

Lemma rows_known : forall i, In i l -> Forall (fun x : row => In (fst (fst x)) stands /\ In (snd (fst x)) stands) (sorted_rows (bit_shift k) num i).
Proof.
  intros i Ii. destruct (rows_ok i Ii) as (_ & Pm & _). destruct (in_ok i Ii) as (_ & _ & F).
  apply (Permutation_Forall Pm). eapply Forall_impl; [|apply F]. intros x (H1 & H2 & _). auto.
Qed.
Lemma rows_good : forall i, In i l -> Forall (good_row codes ncol) (sorted_rows (bit_shift k) num i).
Proof.
  intros i Ii. destruct (rows_ok i Ii) as (_ & Pm & _). destruct (in_ok i Ii) as (_ & _ & F).
  apply (Permutation_Forall Pm). eapply Forall_impl; [|apply F]. intros x (_ & _ & H). exact H.
Qed.

Lemma names_len : length names = n.
Proof. unfold n. symmetry. eapply forall2_len; eauto. Qed.
Lemma name_at : forall p, (p < n)%nat -> numeric_stokes (nth p codes 0) = Ok (nth p names ""%string).
Proof.
  intros p Hp. unfold n in Hp. clear - Hnames Hp. revert p Hp. induction Hnames as [|c nm cs nms H F IH]; intros p Hp; simpl in *; [lia|].
  destruct p as [|p]; [apply code_name_ok; auto|]. apply IH; auto. lia.
Qed.

Lemma unique_z_const : forall A (l : list A) x, l <> [] -> unique_z (map (fun _ => x) l) = [x].
Proof.
  induction l0 as [|a m IH]; intros x N; [congruence|]. simpl. destruct m as [|b m]; auto. rewrite IH by discriminate. simpl. rewrite Z.eqb_refl. reflexivity.
Qed.

Lemma get_ok : forall j i auto, nth_error l j = Some i ->
  exists d es, get_data_set E r f (Z.of_nat j + 1) auto = Ok d /\
    (s_jd d == utcjd E (i_time i))%Q /\ s_freq d = r_freq r /\ s_center d = (clip 16 (fst (center_of E i)), snd (center_of E i)) /\
    s_int d = map (fun _ => q32 E (i_length i)) (i_rows i) /\
    Permutation es (entries_of E n (Z.of_nat ncol) auto i) /\ says stands names d es.
Proof.
  intros j i auto Hj. assert (Ii : In i l) by (eapply nth_error_In; eauto).
  destruct (rows_ok i Ii) as (Tk & Pm & Ll). pose proof (rows_good i Ii) as Gd. rewrite Forall_forall in Gd.
  set (pr := sorted_rows (bit_shift k) num i) in *.
  destruct (keep_ok auto pr 0 (rows_known i Ii)) as (kept & K1 & K2 & K3).
  destruct (source_at i Ii) as (N0 & Ns).
  assert (Tg : py_index (r_times r) (Z.of_nat j + 1 - 1) = Ok (J i)).
  { rewrite times_ok, py_index_map. replace (Z.of_nat j + 1 - 1) with (Z.of_nat j) by lia.
    assert (B : (j < length l)%nat) by (apply nth_error_Some; congruence).
    rewrite (py_index_ok i) by (unfold zlen; lia). unfold znth. destruct (Z.ltb_spec (Z.of_nat j) 0); [lia|]. rewrite Nat2Z.id.
    rewrite (nth_error_nth _ _ _ Hj). reflexivity. }
  assert (Sel : forall A (g : row -> A), take (map g pr) (map snd kept) = Ok (map g (filter (keep auto) pr))).
  { intros A g. rewrite take_map, K2. change (map snd (filter fst (enumerate_from 0 (map (keep auto) pr)))) with (where_ (map (keep auto) pr)). rewrite take_where. reflexivity. }
  assert (Nb : pr <> []). { intro C. rewrite C in Ll. destruct (in_ok i Ii) as (N & _). destruct (i_rows i); [congruence|discriminate]. }
  set (uv := fun x : row => uvrow_of E (bit_shift k) num codes ncol tbl i x).
  assert (Bk : forall A (proj : @uvrow V W U -> A), map proj (blk i) = map (fun x => proj (uv x)) pr).
  { intros A proj. unfold blk, block. rewrite map_map. reflexivity. }
  exists (mkS (J i) (r_freq r) (map fst kept) (map (fun x => t_uvw (uv x)) (filter (keep auto) pr)) (clip 16 (fst (center_of E i)), snd (center_of E i))
      (map (fun _ => q32 E (i_length i)) (i_rows i))
      (map (fun p => (nth p names ""%string, map (fun x => map (v32 E) (fst (cell p x))) (filter (keep auto) pr), map (fun x => wgt_of E ncol i p x) (filter (keep auto) pr))) (seq 0 n))).
  exists (map (entry_of E n (Z.of_nat ncol) i) (filter (keep auto) pr)).
  split; [|split; [apply J_eq|split; [reflexivity|split; [reflexivity|split; [reflexivity|split]]]]].
  - assert (Sc : forall A (c : list A) (proj : @uvrow V W U -> A), c = map proj blocks ->
      take c (where_ (map (fun q => Qeq_bool q (J i)) (jds (f_uv f)))) = Ok (map (fun x => proj (uv x)) pr)).
    { intros A c proj ->. rewrite select_ok by auto. rewrite Bk. reflexivity. }
    unfold get_data_set. rewrite Tg. cbn [bind]. cbv zeta.
    rewrite (Sc _ _ t_src) by reflexivity. cbn [bind]. rewrite (Sc _ _ t_bl) by reflexivity. cbn [bind]. rewrite (Sc _ _ jd) by apply jds_ok. cbn [bind].
    rewrite (Sc _ _ t_int) by reflexivity. cbn [bind]. rewrite (Sc _ _ t_uvw) by reflexivity. cbn [bind]. rewrite (Sc _ _ t_flux) by reflexivity. cbn [bind].
    rewrite (Sc _ _ t_wgt) by reflexivity. cbn [bind].
    change (map (fun x => t_bl (uv x)) pr) with (map (fun x : row => packed (bit_shift k) num (fst x)) pr). rewrite K1. cbn [bind].
    change (map (fun x => t_src (uv x)) pr) with (map (fun _ : row => src_no E tbl i + 1) pr). rewrite unique_z_const by auto.
    assert (Fs : py_index (f_src f) (src_no E tbl i + 1 - 1) = Ok (clip 16 (fst (center_of E i)), snd (center_of E i))).
    { replace (src_no E tbl i + 1 - 1) with (src_no E tbl i) by lia. unfold f, file_of. cbn [f_src]. rewrite py_index_map.
      assert (B : (Z.to_nat (src_no E tbl i) < length tbl)%nat) by (apply nth_error_Some; congruence).
      rewrite (py_index_ok (center_of E i)) by (unfold zlen; lia). unfold znth. destruct (Z.ltb_spec (src_no E tbl i) 0); [lia|].
      rewrite (nth_error_nth _ _ _ Ns). reflexivity. }
    rewrite Fs. cbn [bind]. rewrite !Sel. cbn [bind].
    assert (J0 : py_index (map (fun x => jd (uv x)) pr) 0 = Ok (J i)). { destruct pr; [congruence|reflexivity]. }
    rewrite J0. cbn [bind]. rewrite freq_len, pols_ok. rewrite combine_range. fold n.
    rewrite map_map. cbn [fst snd].
    assert (Mi : map (fun x => t_int (uv x)) pr = map (fun _ => q32 E (i_length i)) (i_rows i)).
    { change (map (fun x => t_int (uv x)) pr) with (map (fun _ : row => q32 E (i_length i)) pr). rewrite <- !repeat_map, Ll. reflexivity. }
    rewrite Mi.
    rewrite (P_Base.collect_ok nat _ _ (fun p => (nth p names ""%string, map (fun x => map (v32 E) (fst (cell p x))) (filter (keep auto) pr), map (fun x => wgt_of E ncol i p x) (filter (keep auto) pr)))).
    + reflexivity.
    + intros p Ip. apply in_seq in Ip. rewrite name_at by lia. cbn [bind]. apply f_equal. f_equal; [f_equal|].
      * rewrite map_map. apply map_ext_in. intros x Ix. apply filter_In in Ix. destruct Ix as (Ix & _). unfold uv, uvrow_of. cbn [t_flux].
        change (zlen codes) with (Z.of_nat n). fold n.
        rewrite (fill_read _ _ n ncol (fun q => vis_of E q x)); [|apply (flux_filled E (bit_shift k) num codes ncol); auto|lia|apply (vis_len E (bit_shift k) num codes ncol); auto; fold n; lia].
        unfold vis_of. rewrite map_map. apply map_ext. intro v. apply Hconj.
      * rewrite map_map. apply map_ext_in. intros x Ix. apply filter_In in Ix. destruct Ix as (Ix & _). unfold uv, uvrow_of. cbn [t_wgt].
        change (zlen codes) with (Z.of_nat n). fold n.
        apply (fill_read _ _ n ncol (fun q => wgt_of E ncol i q x)); [apply (wgt_filled E (bit_shift k) num codes ncol); auto|lia|apply (wgt_len E (bit_shift k) num codes ncol); auto; fold n; lia].
  - unfold entries_of. assert (Ff : filter (wanted auto) (map (entry_of E n (Z.of_nat ncol) i) (i_rows i)) = map (entry_of E n (Z.of_nat ncol) i) (filter (keep auto) (i_rows i))) by apply filter_map_comm.
    rewrite Ff. apply Permutation_map, perm_filter. symmetry. auto.
  - split; [|split].
    + cbn [s_bl]. clear - K3. induction K3 as [|b x bs xs H K IH]; simpl; constructor; auto.
    + cbn [s_uvw]. rewrite map_map. reflexivity.
    + cbn [s_pols]. rewrite (combine_seq _ ""%string), map_map, names_len. apply map_ext_in. intros p Ip. apply in_seq in Ip. cbn [fst snd].
      assert (Nth : forall x, nth p (snd (entry_of E n (Z.of_nat ncol) i x)) ([], []) = (map (v32 E) (fst (cell p x)), wgt_of E ncol i p x)).
      { intro x. unfold entry_of. cbn [snd].
        rewrite (nth_indep _ _ ((fun p => (map (v32 E) (fst (cell p x)), if i_weighted i p then map (w32 E) (snd (cell p x)) else repeat (w1 E) (Z.to_nat (Z.of_nat ncol)))) O)) by (rewrite map_length, seq_length; lia).
        rewrite (map_nth (fun p => (map (v32 E) (fst (cell p x)), if i_weighted i p then map (w32 E) (snd (cell p x)) else repeat (w1 E) (Z.to_nat (Z.of_nat ncol))))), seq_nth by lia.
        cbn [Nat.add]. unfold wgt_of. rewrite Nat2Z.id. reflexivity. }
      rewrite !map_map. f_equal; [f_equal|]; apply map_ext; intro x; rewrite Nth; reflexivity.
Qed.
End Main.
