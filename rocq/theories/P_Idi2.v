(** The loop over the data sets of complete integrations. *)
From Coq Require Import String.
From Coq Require Import List ZArith QArith Qabs Sorted Permutation Bool Lia Lqa.
From Verif Require Import M_Idi S_Idi P_Base P_Vis P_Vis2 P_Idi.
Import ListNotations.
Open Scope Z_scope.

Section Loop.
Context {V W U P : Type} (E : sky V W U P).
Notation integration := (@integration V W P).
Notation row := ((Z * Z) * list (list V * list W))%type.

Variables (m : option (list (Z * Z))) (shift : Z) (stands : list Z) (num : Z -> Z).
Hypothesis Hshift : 0 <= shift.
Hypothesis Hm : forall s, In s stands -> mapped m s = Ok (num s).
Hypothesis Hnum : forall s, In s stands -> 0 <= num s < 2 ^ shift.
Hypothesis Hinj : forall s t, In s stands -> In t stands -> num s = num t -> s = t.

Definition packed (b : Z * Z) : Z := merge_baseline (num (fst b)) (num (snd b)) shift.
Definition known (b : Z * Z) : Prop := In (fst b) stands /\ In (snd b) stands.
Lemma pack_ok : forall b, known b -> pack m shift b = Ok (packed b).
Proof. intros b [H1 H2]. unfold pack. rewrite !Hm by auto. reflexivity. Qed.
Lemma packed_inj : forall a b, known a -> known b -> packed a = packed b -> a = b.
Proof.
  intros [a1 a2] [b1 b2] [Ha1 Ha2] [Hb1 Hb2] H. simpl in *. unfold packed in H. simpl in H.
  pose proof (split_merge_bits shift (num a1) (num a2) Hshift (Hnum _ Ha1) (Hnum _ Ha2)) as Sa.
  pose proof (split_merge_bits shift (num b1) (num b2) Hshift (Hnum _ Hb1) (Hnum _ Hb2)) as Sb.
  unfold merge_bits in Sa, Sb. unfold merge_baseline in H. rewrite H, Sb in Sa. injection Sa as K1 K2.
  f_equal; apply Hinj; auto.
Qed.
Lemma pack_all : forall l, Forall known l -> collect (map (pack m shift) l) = Ok (map packed l).
Proof. intros l F. rewrite Forall_forall in F. apply P_Base.collect_ok. intros b I. apply pack_ok. auto. Qed.

(** The order of the rows of an integration, and the rows in that order *)
Definition order_of (i : integration) : list Z := map snd (sort_keys (enumerate_from 0 (map packed (map fst (i_rows i))))).

Variables (codes : list Z) (ncol : nat).
Let n := length codes.
Hypothesis Hcodes : NoDup codes.
Hypothesis Hn : (0 < n)%nat.

Definition ok (i : integration) : Prop := complete stands n (Z.of_nat ncol) i.

Lemma ok_known : forall i, ok i -> Forall known (map fst (i_rows i)).
Proof.
  intros i (_ & _ & F). rewrite Forall_forall in *. intros b I. apply in_map_iff in I. destruct I as (r & <- & I).
  destruct (F r I) as (H1 & H2 & _). split; auto.
Qed.
Lemma order_take : forall i, ok i -> exists pr, take (i_rows i) (order_of i) = Ok pr /\ Permutation (i_rows i) pr /\
  StronglySorted (fun a b => packed (fst a) < packed (fst b)) pr /\ length (order_of i) = length (i_rows i).
Proof.
  intros i Hi. pose proof (ok_known i Hi) as K. destruct Hi as (N0 & N1 & F).
  destruct (i_rows i) as [|r0 rs] eqn:R; [congruence|]. rewrite <- R in *.
  destruct (take_sorted r0 (i_rows i) (fun r => packed (fst r))) as (pr & H1 & H2 & H3 & H4).
  exists pr. unfold order_of. rewrite map_map, map_length. split; auto. split; auto. split; auto.
  apply sorted_strict; auto. apply (Permutation_NoDup (Permutation_map (fun r => packed (fst r)) H2)).
  rewrite <- (map_map fst packed). clear - N1 K Hinj Hnum Hshift Hm.
  induction (map fst (i_rows i)) as [|b l IH]; simpl; [constructor|].
  inversion N1; subst. inversion K; subst. constructor; auto. intro I. apply in_map_iff in I. destruct I as (b' & Eq & I).
  apply packed_inj in Eq; auto; [congruence|]. rewrite Forall_forall in *; auto.
Qed.

(** A row of the matrices when [p] polarizations are in *)
Definition vis_of (p : nat) (r : row) : list V := map (fun v => v32 E (conj E v)) (fst (cell p r)).
Definition wgt_of (i : integration) (p : nat) (r : row) : list W :=
  if i_weighted i p then map (w32 E) (snd (cell p r)) else repeat (w1 E) ncol.
Fixpoint flux_row (p : nat) (r : row) : list V :=
  match p with O => repeat (v0 E) (n * ncol) | S q => set_stride q n (flux_row q r) (vis_of q r) end.
Fixpoint wgt_row (i : integration) (p : nat) (r : row) : list W :=
  match p with
  | O => repeat (w1 E) (n * ncol)
  | S q => if i_weighted i q then set_stride q n (wgt_row i q r) (map (w32 E) (snd (cell q r))) else wgt_row i q r
  end.
Definition good_row (r : row) : Prop := length (snd r) = n /\ Forall (fun c => zlen (fst c) = Z.of_nat ncol /\ zlen (snd c) = Z.of_nat ncol) (snd r).
Lemma cell_len : forall r p, good_row r -> (p < n)%nat -> length (fst (cell p r)) = ncol /\ length (snd (cell p r)) = ncol.
Proof.
  clear Hshift Hm Hnum Hinj Hcodes Hn.
  intros r p [L F] Hp. rewrite Forall_forall in F. assert (I : In (cell p r) (snd r)) by (apply nth_In; lia).
  destruct (F _ I). unfold zlen in *. lia.
Qed.
Lemma vis_len : forall r p, good_row r -> (p < n)%nat -> length (vis_of p r) = ncol.
Proof.
  clear Hshift Hm Hnum Hinj Hcodes Hn. intros. unfold vis_of. rewrite map_length. apply cell_len; auto. Qed.
Lemma wgt_len : forall i r p, good_row r -> (p < n)%nat -> length (wgt_of i p r) = ncol.
Proof.
  clear Hshift Hm Hnum Hinj Hcodes Hn. intros i r p G Hp. unfold wgt_of. destruct (i_weighted i p); [rewrite map_length; apply cell_len; auto|apply repeat_length]. Qed.
Lemma flux_filled : forall r p, good_row r -> (p <= n)%nat -> filled (v0 E) n ncol p (fun q => vis_of q r) (flux_row p r).
Proof.
  clear Hshift Hm Hnum Hinj Hcodes Hn.
  induction p as [|p IH]; intros G Hp; [apply fill_start|]. cbn [flux_row].
  apply fill_step with (vals := fun q => vis_of q r); [lia|apply vis_len; auto; lia|apply IH; auto; lia].
Qed.
Lemma wgt_filled : forall i r p, good_row r -> (p <= n)%nat -> filled (w1 E) n ncol p (fun q => wgt_of i q r) (wgt_row i p r).
Proof.
  clear Hshift Hm Hnum Hinj Hcodes Hn.
  induction p as [|p IH]; intros G Hp; [apply fill_start|]. cbn [wgt_row].
  assert (L : (p < n)%nat) by lia. pose proof (wgt_len i r p G L) as Hl.
  destruct (i_weighted i p) eqn:Ew.
  - assert (R : map (w32 E) (snd (cell p r)) = wgt_of i p r) by (unfold wgt_of; rewrite Ew; auto).
    rewrite R. apply fill_step with (vals := fun q => wgt_of i q r); [lia|auto|apply IH; auto; lia].
  - apply fill_skip; auto; [|apply IH; auto; lia]. unfold wgt_of. rewrite Ew. auto.
Qed.

Variable tbl : list (str * P).
Definition src_no (i : integration) : Z := match list_index str_eqb (fst (center_of E i)) (map fst tbl) with Ok k => k | Raise _ => 0 end.
Definition listed (i : integration) : Prop := In (fst (center_of E i)) (map fst tbl).
Hypothesis str_eqb_spec : forall x y, str_eqb x y = true <-> x = y.

Definition ds (i : integration) (p : nat) : dataset V W P :=
  mkD (i_time i) (i_length i) (map fst (i_rows i)) (map (fun r => fst (cell p r)) (i_rows i))
      (if i_weighted i p then Some (map (fun r => snd (cell p r)) (i_rows i)) else None) (nth p codes 0) (i_source i).

Definition uvrow_of (i : integration) (r : row) : uvrow :=
  mkRow (packed (fst r)) (day0 E (i_time i)) (utcjd E (i_time i) - day0 E (i_time i))%Q (q32 E (i_length i))
        (u32 E (uvw E (i_source i) (i_time i) (fst r))) (src_no i + 1) (wgt_row i n r) (flux_row n r).
Definition sorted_rows (i : integration) : list row := match take (i_rows i) (order_of i) with Ok pr => pr | Raise _ => [] end.
Definition block (i : integration) : list (@uvrow V W U) := map (uvrow_of i) (sorted_rows i).
Definition app_uv (a b : uvdata V W U) : uvdata V W U :=
  mkUV (u_bl a ++ u_bl b) (u_date a ++ u_date b) (u_time a ++ u_time b) (u_int a ++ u_int b) (u_uvw a ++ u_uvw b) (u_src a ++ u_src b)
       (u_wgt a ++ u_wgt b) (u_flux a ++ u_flux b).
(** The same without visibilities and weights *)
Definition meta (t : uvdata V W U) : uvdata V W U := mkUV (u_bl t) (u_date t) (u_time t) (u_int t) (u_uvw t) (u_src t) [] [].

Definition after (u0 : uvdata V W U) (i : integration) (p : nat) (st : loop) : Prop :=
  let pr := sorted_rows i in
  l_order st = Some (order_of i) /\ l_mapped st = Some (map (fun r => packed (fst r)) pr) /\
  l_mat st = Some (map (flux_row p) pr, map (wgt_row i p) pr) /\
  l_uv st = app_uv u0 (if (p <? n)%nat then meta (table_of (block i)) else table_of (block i)).

Definition before (l : list integration) (st : @loop V W U) : Prop :=
  match l_order st with
  | None => True
  | Some o => exists j, In j l /\ o = order_of j /\ match l_mapped st with None => True | Some mp => mp = map (fun r => packed (fst r)) (sorted_rows j) end
  end.

Notation pass := (uv_pass E m shift codes (Z.of_nat ncol) tbl).

Lemma sorted_rows_ok : forall i, ok i -> take (i_rows i) (order_of i) = Ok (sorted_rows i) /\ Permutation (i_rows i) (sorted_rows i) /\
  StronglySorted (fun a b => packed (fst a) < packed (fst b)) (sorted_rows i) /\ length (order_of i) = length (i_rows i) /\
  length (sorted_rows i) = length (i_rows i).
Proof.
  intros i Hi. destruct (order_take i Hi) as (pr & H1 & H2 & H3 & H4). unfold sorted_rows. rewrite H1.
  do 4 (split; auto). symmetry. apply Permutation_length. auto.
Qed.
Lemma take_rows : forall i B (f : row -> B), ok i -> take (map f (i_rows i)) (order_of i) = Ok (map f (sorted_rows i)).
Proof. intros i B f Hi. rewrite take_map. destruct (sorted_rows_ok i Hi) as (-> & _). reflexivity. Qed.
Lemma good_rows : forall i, ok i -> Forall good_row (sorted_rows i).
Proof.
  intros i Hi. destruct (sorted_rows_ok i Hi) as (_ & Pm & _). destruct Hi as (_ & _ & F).
  apply (Permutation_Forall Pm). eapply Forall_impl; [|apply F]. intros r (_ & _ & H). exact H.
Qed.
Lemma repeat_map : forall A B (x : A) (l : list B), repeat x (length l) = map (fun _ => x) l.
Proof. induction l; simpl; congruence. Qed.

Lemma set_columns_ok : forall A T (p : nat) (rows : list T) (f : T -> list A) (g : T -> list A), (p < n)%nat ->
  (forall r, In r rows -> length (g r) = ncol) ->
  set_columns (Z.of_nat p) (Z.of_nat n) (Z.of_nat ncol) (map f rows) (map g rows) = Ok (map (fun r => set_stride p n (f r) (g r)) rows).
Proof.
  intros A T p rows f g Hp L. unfold set_columns. rewrite spread_same by (rewrite !zlen_map; auto). cbn [bind].
  assert (K : collect (map (spread (Z.of_nat ncol)) (map g rows)) = Ok (map g rows)).
  { rewrite map_map. rewrite (P_Base.collect_ok T (list A) _ g); auto. intros r I. apply spread_same. unfold zlen. rewrite L; auto. }
  rewrite K. cbn [bind]. rewrite zip_with_map, !Nat2Z.id. reflexivity.
Qed.

Lemma zlen_codes : zlen codes = Z.of_nat n.
Proof. reflexivity. Qed.
Lemma nth_codes : forall p, (p < n)%nat -> nth_error codes p = Some (nth p codes 0).
Proof. intros. apply nth_error_nth'. auto. Qed.
Lemma same_code : forall p q, (p < n)%nat -> (q < n)%nat -> nth p codes 0 = nth q codes 0 -> p = q.
Proof. intros p q Hp Hq H. eapply NoDup_nth; eauto. Qed.
Lemma last_code : last codes 0 = nth (n - 1) codes 0.
Proof.
  subst n. clear. induction codes as [|c l IH]; auto. destruct l as [|c' l]; auto.
  change (last (c :: c' :: l) 0) with (last (c' :: l) 0). rewrite IH. simpl. rewrite Nat.sub_0_r. reflexivity.
Qed.

(** The part of a pass after the metadata *)
Lemma pass_tail : forall i p mp (u : uvdata V W U), ok i -> (p < n)%nat ->
  bind (take (d_vis (ds i p)) (order_of i)) (fun vis =>
  bind (list_index Z.eqb (d_pol (ds i p)) codes) (fun k =>
    bind (set_columns k (zlen codes) (Z.of_nat ncol) (map (flux_row p) (sorted_rows i)) (map (map (fun v => v32 E (conj E v))) vis)) (fun mv =>
    bind (match d_wgt (ds i p) with
          | None => Ok (map (wgt_row i p) (sorted_rows i))
          | Some wg => bind (take wg (order_of i)) (fun wg => set_columns k (zlen codes) (Z.of_nat ncol) (map (wgt_row i p) (sorted_rows i)) (map (map (w32 E)) wg))
          end) (fun mw =>
    let u' := if d_pol (ds i p) =? last codes 0
             then mkUV (u_bl u) (u_date u) (u_time u) (u_int u) (u_uvw u) (u_src u) (u_wgt u ++ mw) (u_flux u ++ mv)
             else u in
    Ok (mkL (Some (order_of i)) mp (Some (mv, mw)) u')))))
  = Ok (mkL (Some (order_of i)) mp (Some (map (flux_row (S p)) (sorted_rows i), map (wgt_row i (S p)) (sorted_rows i)))
           (if (S p <? n)%nat then u else mkUV (u_bl u) (u_date u) (u_time u) (u_int u) (u_uvw u) (u_src u)
              (u_wgt u ++ map (wgt_row i n) (sorted_rows i)) (u_flux u ++ map (flux_row n) (sorted_rows i)))).
Proof.
  intros i p mp u Hi Hp. pose proof (good_rows i Hi) as G. rewrite Forall_forall in G.
  cbn [ds d_vis d_pol d_wgt]. rewrite take_rows by auto. cbn [bind].
  rewrite (list_index_nth codes p) by (auto using nth_codes). cbn [bind]. rewrite zlen_codes.
  rewrite map_map. change (fun x : row => map (fun v : V => v32 E (conj E v)) (fst (cell p x))) with (vis_of p).
  rewrite set_columns_ok by (auto using vis_len). cbn [bind].
  change (map (fun r => set_stride p n (flux_row p r) (vis_of p r)) (sorted_rows i)) with (map (flux_row (S p)) (sorted_rows i)).
  assert (Kw : match (if i_weighted i p then Some (map (fun r => snd (cell p r)) (i_rows i)) else None) with
          | None => Ok (map (wgt_row i p) (sorted_rows i))
          | Some wg => bind (take wg (order_of i)) (fun wg => set_columns (Z.of_nat p) (Z.of_nat n) (Z.of_nat ncol) (map (wgt_row i p) (sorted_rows i)) (map (map (w32 E)) wg))
          end = Ok (map (wgt_row i (S p)) (sorted_rows i))).
  { cbn [wgt_row]. destruct (i_weighted i p) eqn:Ew.
    - rewrite take_rows by auto. cbn [bind]. rewrite map_map. rewrite set_columns_ok; auto.
      intros r I. rewrite map_length. apply cell_len; auto.
    - reflexivity. }
  rewrite Kw. cbn [bind]. rewrite last_code.
  destruct (Nat.ltb_spec (S p) n) as [L|L].
  - destruct (Z.eqb_spec (nth p codes 0) (nth (n - 1) codes 0)) as [C|C]; auto. apply same_code in C; lia.
  - assert (S p = n) by lia. replace (n - 1)%nat with p by lia. rewrite Z.eqb_refl.
    assert (Hs : S p = n) by auto. clear - Hs. rewrite Hs. reflexivity.
Qed.

Lemma map_const_len : forall A B C (x : A) (l : list B) (l' : list C), length l = length l' -> repeat x (Z.to_nat (zlen l)) = map (fun _ => x) l'.
Proof. intros A B C x l l' H. unfold zlen. rewrite Nat2Z.id, H. apply repeat_map. Qed.

Lemma pass_first : forall l i st, In i l -> same_layout l -> Forall ok l -> listed i -> before l st ->
  exists st', pass st (ds i 0) = Ok st' /\ after (l_uv st) i 1 st'.
Proof.
  intros l i st I Lay F Hl B. rewrite Forall_forall in F. pose proof (F i I) as Hi.
  destruct (sorted_rows_ok i Hi) as (Tk & Pm & Ss & Lo & Ls).
  assert (Anew : argsort m shift (d_bl (ds i 0)) = Ok (order_of i)).
  { unfold argsort. cbn [ds d_bl]. rewrite pack_all by (apply ok_known; auto). reflexivity. }
  assert (Ord : exists mp, match l_order st with
        | Some o => if zlen (d_vis (ds i 0)) =? zlen o then Ok (o, l_mapped st) else bind (argsort m shift (d_bl (ds i 0))) (fun o => Ok (o, @None (list Z)))
        | None => bind (argsort m shift (d_bl (ds i 0))) (fun o => Ok (o, @None (list Z)))
        end = Ok (order_of i, mp) /\ (mp = None \/ mp = Some (map (fun r => packed (fst r)) (sorted_rows i)))).
  { rewrite Anew. unfold before in B. destruct (l_order st) as [o|]; [|exists None; auto].
    destruct (Z.eqb_spec (zlen (d_vis (ds i 0))) (zlen o)) as [C|C]; [|exists None; auto].
    destruct B as (j & Ij & -> & Bm). pose proof (F j Ij) as Hj. destruct (sorted_rows_ok j Hj) as (_ & _ & _ & Loj & _).
    cbn [ds d_vis] in C. rewrite zlen_map in C. unfold zlen in C. assert (Ll : length (i_rows i) = length (i_rows j)) by lia.
    pose proof (Lay i j I Ij Ll) as Bl. assert (Oe : order_of j = order_of i) by (unfold order_of; rewrite Bl; auto).
    exists (l_mapped st). rewrite Oe. split; auto. destruct (l_mapped st) as [mp|]; auto. right. f_equal. rewrite Bm.
    assert (K : Ok (map packed (map fst (sorted_rows j))) = Ok (map packed (map fst (sorted_rows i)))).
    { rewrite !map_map. rewrite <- (take_rows i _ (fun r => packed (fst r))), <- (take_rows j _ (fun r => packed (fst r))) by auto.
      rewrite <- (map_map fst packed), <- (map_map fst packed), Bl, Oe. auto. }
    rewrite !map_map in K. congruence. }
  destruct Ord as (mp & Om & Hmp).
  assert (Src : exists k, list_index str_eqb (fst (center_of E i)) (map fst tbl) = Ok k).
  { destruct (list_index_ok _ str_eqb str_eqb_spec _ _ Hl) as (k & -> & _). eauto. }
  destruct Src as (k & Sk).
  eexists. split.
  - unfold uv_pass. rewrite Om. cbn [bind].
    assert (P0 : py_index codes 0 = Ok (nth 0 codes 0)).
    { rewrite (py_index_ok 0) by (rewrite zlen_codes; lia). reflexivity. }
    rewrite P0. cbn [bind]. change (d_pol (ds i 0)) with (nth 0 codes 0) at 1. rewrite Z.eqb_refl.
    change (src_name E (d_src (ds i 0)) (d_time (ds i 0))) with (fst (center_of E i)). rewrite Sk. cbn [bind].
    assert (Ub : match d_bl (ds i 0) with [] => Raise IndexError | bl => Ok (map (uvw E (d_src (ds i 0)) (d_time (ds i 0))) bl) end
              = Ok (map (fun r => uvw E (i_source i) (i_time i) (fst r)) (i_rows i))).
    { cbn [ds d_bl d_src d_time]. destruct Hi as (N0 & _). destruct (i_rows i); [congruence|]. cbn [map]. rewrite map_map. reflexivity. }
    rewrite Ub. cbn [bind].
    assert (Um : match mp with
                | Some l => Ok l
                | None => bind (take (d_bl (ds i 0)) (order_of i)) (fun bl => collect (map (pack m shift) bl))
                end = Ok (map (fun r => packed (fst r)) (sorted_rows i))).
    { destruct Hmp as [-> | ->]; auto. cbn [ds d_bl]. rewrite take_rows by auto. cbn [bind]. rewrite pack_all.
      - rewrite map_map. auto.
      - apply (Permutation_Forall (Permutation_map fst Pm)). apply ok_known. auto. }
    rewrite Um. cbn [bind]. rewrite take_rows by auto. cbn [bind].
    assert (Mv : map (fun _ : Z => repeat (v0 E) (Z.to_nat (zlen codes * Z.of_nat ncol))) (order_of i) = map (flux_row 0) (sorted_rows i)).
    { rewrite <- repeat_map, Lo, <- Ls, repeat_map. cbn [flux_row]. rewrite zlen_codes. replace (Z.to_nat (Z.of_nat n * Z.of_nat ncol)) with (n * ncol)%nat by lia. auto. }
    assert (Mw : map (fun _ : Z => repeat (w1 E) (Z.to_nat (zlen codes * Z.of_nat ncol))) (order_of i) = map (wgt_row i 0) (sorted_rows i)).
    { rewrite <- repeat_map, Lo, <- Ls, repeat_map. cbn [wgt_row]. rewrite zlen_codes. replace (Z.to_nat (Z.of_nat n * Z.of_nat ncol)) with (n * ncol)%nat by lia. auto. }
    rewrite Mv, Mw. apply pass_tail; auto.
  - assert (R : forall A (x : A), repeat x (Z.to_nat (zlen (d_bl (ds i 0)))) = map (fun _ => x) (sorted_rows i)).
    { intros A x. apply map_const_len. cbn [ds d_bl]. rewrite map_length. auto. }
    unfold after. cbn [l_order l_mapped l_mat l_uv]. do 3 (split; [auto|]). rewrite !R.
    unfold app_uv, meta, table_of, block. cbn [u_bl u_date u_time u_int u_uvw u_src u_wgt u_flux ds d_time d_int]. rewrite !map_map.
    unfold uvrow_of. cbn [t_bl t_date t_time t_int t_uvw t_src t_wgt t_flux]. unfold src_no. rewrite Sk.
    destruct (1 <? n)%nat; cbn [u_bl u_date u_time u_int u_uvw u_src u_wgt u_flux]; rewrite ?app_nil_r; auto.
Qed.

Lemma pass_next : forall i p st u0, ok i -> (0 < p < n)%nat -> after u0 i p st ->
  exists st', pass st (ds i p) = Ok st' /\ after u0 i (S p) st'.
Proof.
  intros i p st u0 Hi Hp (H1 & H2 & H3 & H4). destruct (sorted_rows_ok i Hi) as (Tk & Pm & Ss & Lo & Ls).
  eexists. split.
  - unfold uv_pass. rewrite H1. assert (C : zlen (d_vis (ds i p)) =? zlen (order_of i) = true).
    { apply Z.eqb_eq. cbn [ds d_vis]. rewrite zlen_map. unfold zlen. rewrite Lo. auto. }
    rewrite C. cbn [bind].
    assert (P0 : py_index codes 0 = Ok (nth 0 codes 0)).
    { rewrite (py_index_ok 0) by (rewrite zlen_codes; lia). reflexivity. }
    rewrite P0. cbn [bind]. change (d_pol (ds i p)) with (nth p codes 0) at 1.
    destruct (Z.eqb_spec (nth p codes 0) (nth 0 codes 0)) as [K|K]; [apply same_code in K; lia|].
    cbn [bind]. rewrite H2, H3. apply pass_tail; auto. lia.
  - unfold after. cbn [l_order l_mapped l_mat l_uv]. do 3 (split; [auto|]). rewrite H4.
    destruct (Nat.ltb_spec p n); [|lia]. unfold app_uv, meta, table_of, block. cbn [u_bl u_date u_time u_int u_uvw u_src u_wgt u_flux]. rewrite !map_map.
    destruct (S p <? n)%nat; cbn [u_bl u_date u_time u_int u_uvw u_src u_wgt u_flux]; rewrite ?app_nil_r; auto.
Qed.

Lemma loop_app : forall (f : loop -> dataset V W P -> res (@loop V W U)) a b st, uv_loop f (a ++ b) st = bind (uv_loop f a st) (uv_loop f b).
Proof. induction a as [|d a IH]; intros b st; simpl; auto. destruct (f st d); simpl; auto. Qed.

Lemma pass_all : forall l i st, In i l -> same_layout l -> Forall ok l -> listed i -> before l st ->
  exists st', uv_loop pass (map (ds i) (seq 0 n)) st = Ok st' /\ after (l_uv st) i n st'.
Proof.
  intros l i st I Lay F Hl B. assert (Hi : ok i) by (rewrite Forall_forall in F; auto).
  assert (G : forall p, (0 < p <= n)%nat -> exists st', uv_loop pass (map (ds i) (seq 0 p)) st = Ok st' /\ after (l_uv st) i p st').
  { induction p as [|p IH]; intro Hp; [lia|]. destruct (Nat.eq_dec p 0) as [->|N].
    - destruct (pass_first l i st I Lay F Hl B) as (st' & H1 & H2). exists st'. split; auto. simpl. rewrite H1. reflexivity.
    - destruct IH as (st1 & H1 & H2); [lia|]. destruct (pass_next i p st1 (l_uv st) Hi) as (st' & H3 & H4); [lia|auto|].
      exists st'. split; auto. rewrite seq_S, map_app, loop_app, H1. cbn [bind map uv_loop]. rewrite Nat.add_0_l, H3. reflexivity. }
  apply G. lia.
Qed.

Lemma app_uv_assoc : forall a b c, app_uv (app_uv a b) c = app_uv a (app_uv b c).
Proof. intros. unfold app_uv. simpl. rewrite !app_assoc. auto. Qed.
Lemma table_app : forall a b, table_of (a ++ b) = app_uv (table_of a) (@table_of V W U b).
Proof. intros. unfold table_of, app_uv. simpl. rewrite !map_app. auto. Qed.

(** The whole loop writes the rows of the integrations one after the other. *)
Lemma loop_all : forall l, same_layout l -> Forall ok l -> Forall listed l ->
  exists st', uv_loop pass (flat_map (fun i => map (ds i) (seq 0 n)) l) (mkL None None None (mkUV [] [] [] [] [] [] [] [])) = Ok st' /\
              l_uv st' = table_of (flat_map block l).
Proof.
  intros l Lay F Hl.
  assert (G : forall rest done st, l = done ++ rest -> before l st -> l_uv st = table_of (flat_map block done) ->
    exists st', uv_loop pass (flat_map (fun i => map (ds i) (seq 0 n)) rest) st = Ok st' /\ l_uv st' = table_of (flat_map block l)).
  { induction rest as [|i rest IH]; intros done st Eq B Hu.
    - exists st. split; auto. rewrite Eq, app_nil_r. auto.
    - assert (I : In i l) by (rewrite Eq; apply in_or_app; right; left; auto).
      assert (Li : listed i) by (rewrite Forall_forall in Hl; auto).
      destruct (pass_all l i st I Lay F Li B) as (st1 & H1 & H2).
      cbn [flat_map]. rewrite loop_app, H1. cbn [bind]. destruct H2 as (A1 & A2 & A3 & A4).
      apply (IH (done ++ [i])).
      + rewrite <- app_assoc. auto.
      + unfold before. rewrite A1, A2. exists i. auto.
      + rewrite A4, Hu, Nat.ltb_irrefl. rewrite flat_map_app, table_app. cbn [flat_map]. rewrite app_nil_r. auto. }
  apply (G l []); auto. exact Logic.I.
Qed.

(** The rows of a block are in the order of their baselines. *)
Lemma block_sorted : forall i, ok i -> StronglySorted (fun a b => t_bl a < t_bl b) (block i).
Proof.
  intros i Hi. destruct (sorted_rows_ok i Hi) as (_ & _ & Ss & _). unfold block. induction Ss as [|r l S' IH F]; simpl; constructor; auto.
  apply Forall_forall. intros u I. apply in_map_iff in I. destruct I as (q & <- & I). rewrite Forall_forall in F. simpl. auto.
Qed.
End Loop.
