(** Building the station: every antenna gets what the file says about it. *)
From Coq Require Import Ascii String List ZArith Bool Lia Permutation Sorted.
From Verif Require Import M_Py M_Str M_Sdf P_Str M_Ssmif S_Ssmif P_Ssmif P_SsmifI P_SsmifJ.
Import ListNotations.
Open Scope Z_scope.

(** *** Lists. *)
Lemma combine_map2 : forall A B C (f : A -> B) (g : A -> C) l, combine (map f l) (map g l) = map (fun x => (f x, g x)) l.
Proof. induction l; cbn; congruence. Qed.
Lemma zrange_len : forall n, zrange (Z.of_nat (Z.to_nat n)) = zrange n.
Proof. intros. unfold zrange. now rewrite Nat2Z.id. Qed.
Lemma number_map : forall A (f : Z -> A) n, number (map f (R n)) = map (fun i => (i, f i)) (R n).
Proof.
  intros. unfold number. rewrite map_length, R_length, zrange_len. change (map (fun n0 => n0 + 1) (zrange n)) with (R n).
  rewrite <- (map_id (R n)) at 1. now rewrite combine_map2.
Qed.
Lemma ext_nth : forall A (l m : list A), (forall k, nth_error l k = nth_error m k) -> l = m.
Proof.
  induction l as [|a l IH]; intros [|b m] H; [reflexivity|discriminate (H 0%nat)|discriminate (H 0%nat)|].
  pose proof (H 0%nat) as H0. cbn in H0. injection H0 as ->. f_equal. apply IH. intro k. apply (H (S k)).
Qed.
Lemma R_nth_none : forall n k, (Z.to_nat n <= k)%nat -> nth_error (R n) k = None.
Proof. intros. apply nth_error_None. now rewrite R_length. Qed.
Lemma map_R_nth : forall A (f : Z -> A) n k, nth_error (map f (R n)) k = if (Z.of_nat k + 1 <=? n) then Some (f (Z.of_nat k + 1)) else None.
Proof.
  intros. destruct (Z.leb_spec (Z.of_nat k + 1) n).
  - erewrite map_nth_error; [reflexivity|]. apply R_nth. lia.
  - apply nth_error_None. rewrite map_length, R_length. lia.
Qed.
Lemma attenuate_nth : forall m1 m2 m3 cs l1 l2 l3 k, nth_error (attenuate m1 m2 m3 cs l1 l2 l3) k =
  match nth_error cs k, nth_error l1 k, nth_error l2 k, nth_error l3 k with
  | Some c, Some x, Some y, Some z => Some (with_atten ((x - m1) * 4 + (y - m2) * 4 + (z - m3)) c)
  | oc, _, _, _ => oc
  end.
Proof.
  induction cs as [|c cs IH]; intros l1 l2 l3 k; [destruct k; reflexivity|]. cbn [attenuate].
  destruct l1 as [|x l1]; [destruct k; [reflexivity|cbn; destruct (nth_error cs k); reflexivity]|].
  destruct l2 as [|y l2]; [destruct k; [reflexivity|cbn; destruct (nth_error cs k), (nth_error l1 k); reflexivity]|].
  destruct l3 as [|z l3]; [destruct k; [reflexivity|cbn; destruct (nth_error cs k), (nth_error l1 k), (nth_error l2 k); reflexivity]|].
  destruct k as [|k]; [reflexivity|]. cbn [nth_error]. apply IH.
Qed.
Lemma attenuate_map : forall m1 m2 m3 (C : Z -> cable) f1 f2 f3 nr ns,
  attenuate m1 m2 m3 (map C (R nr)) (map f1 (R ns)) (map f2 (R ns)) (map f3 (R ns)) =
  map (fun r => if r <=? ns then with_atten ((f1 r - m1) * 4 + (f2 r - m2) * 4 + (f3 r - m3)) (C r) else C r) (R nr).
Proof.
  intros. apply ext_nth. intro k. rewrite attenuate_nth, !map_R_nth. destruct (Z.of_nat k + 1 <=? nr); [|reflexivity]. destruct (Z.of_nat k + 1 <=? ns); reflexivity.
Qed.

(** *** The loops over antennas. *)
Definition hits {A} (f : A -> ant -> ant) (l : list (A * Z)) (k : Z) (a : ant) : ant := fold_left (fun b p => if snd p =? k then f (fst p) b else b) l a.
Lemma hits_app : forall A (f : A -> ant -> ant) l m k a, hits f (l ++ m) k a = hits f m k (hits f l k a).
Proof. intros. unfold hits. apply fold_left_app. Qed.
Lemma each_map : forall A (f : A -> ant -> ant) n l g, (forall x k, In (x, k) l -> 1 <= k <= n) ->
  each f l (map g (R n)) = Ok (map (fun k => hits f l k (g k)) (R n)).
Proof.
  induction l as [|[x k] l IH]; intros g H; [reflexivity|]. cbn [each]. assert (K : 1 <= k <= n) by (eapply H; left; reflexivity).
  rewrite py_get_R, py_set_R by exact K. rewrite IH by (intros; eapply H; right; eassumption). f_equal. apply map_ext. intro y. unfold hits. cbn [fold_left fst snd].
  rewrite (Z.eqb_sym k y). destruct (Z.eqb_spec y k) as [->|]; reflexivity.
Qed.
Lemma hits_keep : forall A B (f : A -> ant -> ant) (p : ant -> B) l k a, (forall x b, p (f x b) = p b) -> p (hits f l k a) = p a.
Proof. intros A B f p l k a H. revert a. induction l as [|[x n] l IH]; intro a; [reflexivity|]. unfold hits in *. cbn [fold_left fst snd]. rewrite IH. destruct (n =? k); [apply H|reflexivity]. Qed.
Lemma hits_cases : forall A (f : A -> ant -> ant) l k a,
  ((forall x, ~ In (x, k) l) /\ hits f l k a = a) \/ exists x b, In (x, k) l /\ hits f l k a = f x b.
Proof.
  intros A f l k. induction l as [|[x n] l IH] using rev_ind; intro a; [left; split; [intros x []|reflexivity]|].
  rewrite hits_app. unfold hits at 1 3. cbn [fold_left fst snd]. destruct (Z.eqb_spec n k) as [->|NE].
  - right. exists x, (hits f l k a). split; [apply in_app_iff; right; left; reflexivity|reflexivity].
  - destruct (IH a) as [[N E]|(y & b & Y & E)].
    + left. split; [|exact E]. intros y Y. apply in_app_iff in Y as [Y|[Y|[]]]; [now apply (N y)|congruence].
    + right. exists y, b. split; [apply in_app_iff; now left|exact E].
Qed.

Definition arx_list (name : str) (i m : Z) (l : list (Z * (Z * (str * str)))) : list (arx * Z) :=
  flat_map (fun p => match p with (j, (n, (inp, out))) => if (n =? 0) || (512 <? n) then [] else
    [(mkArx (match parse_int name with Some b => b | None => 0 end) (j + 1) (i * m + j + 1) inp out, n)] end) l.
Lemma arx_row_map : forall name i m N l g, (forall j n io, In (j, (n, io)) l -> n = 0 \/ 512 < n \/ (1 <= n <= N /\ exists z, parse_int name = Some z)) ->
  arx_row name i m l (map g (R N)) = Ok (map (fun k => hits set_arx (arx_list name i m l) k (g k)) (R N)).
Proof.
  induction l as [|[j [n [inp out]]] l IH]; intros g H; [reflexivity|].
  change (arx_list name i m ((j, (n, (inp, out))) :: l)) with ((if (n =? 0) || (512 <? n) then [] else
    [(mkArx (match parse_int name with Some b => b | None => 0 end) (j + 1) (i * m + j + 1) inp out, n)]) ++ arx_list name i m l).
  assert (C := H j n (inp, out) (or_introl eq_refl)). assert (T : forall j n io, In (j, (n, io)) l -> n = 0 \/ 512 < n \/ (1 <= n <= N /\ exists z, parse_int name = Some z)) by (intros; eapply H; right; eassumption).
  cbn [arx_row]. destruct ((n =? 0) || (512 <? n)) eqn:B.
  - now apply IH.
  - apply orb_false_elim in B as [B1 B2]. apply Z.eqb_neq in B1. apply Z.ltb_ge in B2. destruct C as [C|[C|[C [z PZ]]]]; [lia|lia|]. rewrite PZ.
    rewrite each_map by (intros x k [X|[]]; injection X as _ <-; exact C). cbn [bind]. rewrite IH by exact T. f_equal.
Qed.
Lemma arx_rows_map : forall (m N : Z) rows g, (forall i name an ins outs, In (i, (name, (an, (ins, outs)))) rows ->
    forall j n io, In (j, (n, io)) (combine (zrange (Z.of_nat (length an))) (combine an (combine ins outs))) -> n = 0 \/ 512 < n \/ (1 <= n <= N /\ exists z, parse_int name = Some z)) ->
  arx_rows m rows (map g (R N)) = Ok (map (fun k => hits set_arx (flat_map (fun r => match r with (i, (name, (an, (ins, outs)))) =>
    arx_list name i m (combine (zrange (Z.of_nat (length an))) (combine an (combine ins outs))) end) rows) k (g k)) (R N)).
Proof.
  induction rows as [|[i [name [an [ins outs]]]] rows IH]; intros g H; [reflexivity|]. cbn [arx_rows flat_map].
  rewrite arx_row_map with (N := N) by (apply (H i name an ins outs); now left). cbn [bind]. rewrite IH by (intros; eapply H; [right; eassumption|eassumption]). f_equal. apply map_ext. intro k. now rewrite hits_app.
Qed.
Lemma make_ants_map : forall ns (S : Z -> stand) (sa pol stat : Z -> Z) (th ph : Z -> str) l, (forall i, In i l -> 1 <= sa i <= ns) ->
  make_ants (map S (R ns)) (map (fun i => (i, (sa i, (pol i, (th i, (ph i, stat i)))))) l) =
  Ok (map (fun i => mkAnt i (S (sa i)) (pol i) (th i) (ph i) (stat i) None 1 None None 0 0 []) l).
Proof.
  induction l as [|i l IH]; intro H; [reflexivity|]. cbn [map make_ants]. rewrite py_get_R by (apply H; now left). rewrite IH by (intros; apply H; now right). reflexivity.
Qed.
Lemma snap_rows_map : forall m (n_of : Z -> Z -> Z) (c_of : Z -> Z -> str) len a j, 0 <= m ->
  snap_rows (Z.of_nat a + 1) j (map (fun i => (map (n_of i) (R m), map (c_of i) (R m))) (map (fun k => Z.of_nat k + 1) (seq a len))) =
  flat_map (fun i => map (fun c => ((i, (j + (i - 1 - Z.of_nat a) * m + c - 1, c_of i c)), n_of i c)) (R m)) (map (fun k => Z.of_nat k + 1) (seq a len)).
Proof.
  intros m n_of c_of len. induction len as [|len IH]; intros a j M; [reflexivity|]. cbn [seq map flat_map snap_rows]. rewrite combine_map2, map_length, R_length, zrange_len, Z2Nat.id by exact M. f_equal.
  - unfold R. rewrite map_map. rewrite <- (map_id (zrange m)) at 1. rewrite combine_map2, !map_map. apply map_ext. intro k. f_equal. f_equal. f_equal. lia.
  - replace (Z.of_nat a + 1 + 1) with (Z.of_nat (S a) + 1) by lia. rewrite IH by exact M. rewrite !flat_map_concat_map. f_equal. apply map_ext_in. intros i II. apply map_ext. intro c. f_equal. f_equal. f_equal.
    rewrite Nat2Z.inj_succ. ring.
Qed.

(** *** Sorting. *)
Lemma insert_perm : forall a l, Permutation (insert_dig a l) (a :: l).
Proof. induction l as [|b l IH]; cbn [insert_dig]; [reflexivity|]. destruct (_ <=? _); [reflexivity|]. rewrite IH. apply perm_swap. Qed.
Lemma sort_perm : forall l, Permutation (sort_dig l) l.
Proof. induction l as [|a l IH]; cbn [sort_dig]; [reflexivity|]. rewrite insert_perm. now constructor. Qed.
Definition dig_le (a b : ant) : Prop := a_dig a <= a_dig b.
Lemma insert_sorted : forall a l, StronglySorted dig_le l -> StronglySorted dig_le (insert_dig a l).
Proof.
  induction l as [|b l IH]; intro H; cbn [insert_dig]; [repeat constructor|]. inversion H; subst. destruct (Z.leb_spec (a_dig a) (a_dig b)).
  - constructor; [exact H|]. constructor; [exact H0|]. eapply Forall_impl; [|exact H3]. unfold dig_le. intros c C. lia.
  - constructor; [now apply IH|]. rewrite insert_perm. constructor; [unfold dig_le; lia|exact H3].
Qed.
Lemma sort_sorted : forall l, StronglySorted dig_le (sort_dig l).
Proof. induction l; cbn [sort_dig]; [constructor|now apply insert_sorted]. Qed.

Lemma py_min_map : forall (f : Z -> Z) n, 1 <= n -> exists m, py_min (map f (R n)) = Ok m.
Proof. intros f n H. destruct (map f (R n)) as [|x r] eqn:E; [|eexists; reflexivity]. apply (f_equal (@length Z)) in E. rewrite map_length, R_length in E. cbn in E. lia. Qed.

(** *** The values. *)
Section Build.
  Variables (es : list entry) (v : env).
  Hypothesis IV : Inv es v.
  Hypothesis CM : complete es = true.

  Lemma has : forall k, In k ["STATION_ID"; "GEO_N"; "GEO_E"; "GEO_EL"; "N_STD"; "N_FEE"; "N_RPD"; "N_ARB"; "N_ARBCH"; "N_SNAP"; "N_SNAPCH"]%string -> exists w, said es k [] = Some w.
  Proof. intros k K. unfold complete in CM. apply andb_true_iff in CM as [C _]. rewrite forallb_forall in C. specialize (C k K). destruct (said es k []); [eauto|discriminate]. Qed.
  Lemma some_stands : 1 <= num es "N_STD".
  Proof. unfold complete in CM. apply andb_true_iff in CM as [_ C]. now apply Z.leb_le. Qed.
  Lemma scal_val : forall K x, In (K, x) scal -> (exists w, said es K [] = Some w) -> v x = Some (pvof (value es K [])).
  Proof. intros K x I1 [w W]. rewrite (i_scal _ _ IV _ _ I1), (value_said _ _ _ _ W), W. reflexivity. Qed.
  Lemma cnt_val : forall N d, entry_of N format = Some (Count, TInt, d) -> (exists w, said es N [] = Some w) -> declared es N = Some (num es N) /\ 0 <= num es N.
  Proof. intros N d E [w W]. destruct (i_cnt _ _ IV _ _ E) as [[X _]|(n & N0 & _ & D)]; [congruence|]. unfold num. now rewrite D. Qed.
  Lemma cntin_val : forall M N d, entry_of M format = Some (CountIn N, TInt, d) -> (exists w, said es M [] = Some w) -> declared es M = Some (num es M) /\ 0 <= num es M /\ declared es N = Some (num es N) /\ value es M [] = NInt (num es M).
  Proof. intros M N d E [w W]. destruct (i_cntin _ _ IV _ _ _ E) as [[X _]|(n & m & N0 & SM & D & DN)]; [congruence|]. unfold num. rewrite D, DN, (value_said _ _ _ _ SM). auto. Qed.
  Lemma each_val : forall K N m x, In (K, (N, (m, x))) eaches -> declared es N = Some (num es N) -> v x = Some (tab1 (m * num es N) (fun i => pvof (value es K [i]))).
  Proof. intros K N m x I1 D. now apply (i_each _ _ IV _ _ _ _ I1). Qed.
  Lemma grid_val : forall K N M x, In (K, (N, (M, x))) grids -> declared es N = Some (num es N) -> declared es M = Some (num es M) ->
    v x = Some (tab2 (num es N) (num es M) (fun i j => pvof (value es K [i; j]))).
  Proof. intros K N M x I1 D1 D2. now apply (i_grid _ _ IV _ _ _ _ I1). Qed.

  Lemma int_pv : forall K idx, as_int (pvof (value es K idx)) = int_at es K idx.
  Proof. intros. unfold int_at. destruct (value es K idx); reflexivity. Qed.
  Lemma str_pv : forall K idx, as_str (pvof (value es K idx)) = text_at es K idx.
  Proof. intros. unfold text_at. destruct (value es K idx); reflexivity. Qed.
  Lemma ints_tab : forall n K, ints (tab1 n (fun i => pvof (value es K [i]))) = map (fun i => int_at es K [i]) (R n).
  Proof. intros. unfold ints, tab1. cbn [as_list]. rewrite map_map. apply map_ext. intro. apply int_pv. Qed.
  Lemma strs_tab : forall n K, strs (tab1 n (fun i => pvof (value es K [i]))) = map (fun i => text_at es K [i]) (R n).
  Proof. intros. unfold strs, tab1. cbn [as_list]. rewrite map_map. apply map_ext. intro. apply str_pv. Qed.
  Lemma ints_tab2 : forall n m K, map ints (as_list (tab2 n m (fun i j => pvof (value es K [i; j])))) = map (fun i => map (fun j => int_at es K [i; j]) (R m)) (R n).
  Proof. intros. unfold tab2. cbn [as_list]. rewrite map_map. apply map_ext. intro. unfold ints, tab1. cbn [as_list]. rewrite map_map. apply map_ext. intro. apply int_pv. Qed.
  Lemma strs_tab2 : forall n m K, map strs (as_list (tab2 n m (fun i j => pvof (value es K [i; j])))) = map (fun i => map (fun j => text_at es K [i; j]) (R m)) (R n).
  Proof. intros. unfold tab2. cbn [as_list]. rewrite map_map. apply map_ext. intro. unfold strs, tab1. cbn [as_list]. rewrite map_map. apply map_ext. intro. apply str_pv. Qed.

  Definition ns := num es "N_STD". Definition nf := num es "N_FEE". Definition nr := num es "N_RPD".
  Definition nb := num es "N_ARB". Definition nc := num es "N_ARBCH". Definition nw := num es "N_SNAP". Definition nk := num es "N_SNAPCH".
  Definition I1_ K := fun i => int_at es K [i].
  Definition T1_ K := fun i => text_at es K [i].
  Definition col n K := tab1 n (fun i => pvof (value es K [i])).
  Definition col2 n m K := tab2 n m (fun i j => pvof (value es K [i; j])).
  Definition vs0 : list pv :=
    [pvof (value es "STATION_ID" []); pvof (value es "GEO_N" []); pvof (value es "GEO_E" []); pvof (value es "GEO_EL" []);
     VL (map (fun i => VL [pvof (value es "STD_LX" [i]); pvof (value es "STD_LY" [i]); pvof (value es "STD_LZ" [i])]) (R ns));
     col (1 * nf) "FEE_ID"; col (1 * nf) "FEE_GAI1"; col (1 * nf) "FEE_GAI2"; col (1 * nf) "FEE_STAT"; col (1 * nf) "FEE_ANT1"; col (1 * nf) "FEE_ANT2";
     col (1 * nr) "RPD_ID"; col (1 * nr) "RPD_LENG"; col (1 * nr) "RPD_VF"; col (1 * nr) "RPD_DD"; col (1 * nr) "RPD_A0"; col (1 * nr) "RPD_A1"; col (1 * nr) "RPD_STR"; col (1 * nr) "RPD_FREF"; col (1 * nr) "RPD_ANT";
     col (2 * ns) "ANT_STD"; col (2 * ns) "ANT_ORIE"; col (2 * ns) "ANT_THETA"; col (2 * ns) "ANT_PHI"; col (2 * ns) "ANT_STAT";
     VI nc; col (1 * nb) "ARB_ID"; col2 nb nc "ARB_ANT"; col2 nb nc "ARB_IN"; col2 nb nc "ARB_OUT"; col2 nw nk "SNAP_ANT"; col2 nw nk "SNAP_INR";
     col (1 * ns) "ASP_FLT"; col (1 * ns) "ASP_AT1"; col (1 * ns) "ASP_AT2"; col (1 * ns) "ASP_AT3"].

  Lemma counts : declared es "N_STD" = Some ns /\ declared es "N_FEE" = Some nf /\ declared es "N_RPD" = Some nr /\ declared es "N_ARB" = Some nb /\
    declared es "N_ARBCH" = Some nc /\ declared es "N_SNAP" = Some nw /\ declared es "N_SNAPCH" = Some nk.
  Proof.
    assert (A : forall N d, entry_of N format = Some (Count, TInt, d) -> In N ["STATION_ID"; "GEO_N"; "GEO_E"; "GEO_EL"; "N_STD"; "N_FEE"; "N_RPD"; "N_ARB"; "N_ARBCH"; "N_SNAP"; "N_SNAPCH"]%string -> declared es N = Some (num es N))
      by (intros N d E K; now apply (cnt_val N d E (has N K))).
    assert (B : forall M N d, entry_of M format = Some (CountIn N, TInt, d) -> In M ["STATION_ID"; "GEO_N"; "GEO_E"; "GEO_EL"; "N_STD"; "N_FEE"; "N_RPD"; "N_ARB"; "N_ARBCH"; "N_SNAP"; "N_SNAPCH"]%string -> declared es M = Some (num es M))
      by (intros M N d E K; now apply (cntin_val M N d E (has M K))).
    repeat apply conj; first [ eapply A; [reflexivity|in_list] | eapply B; [reflexivity|in_list] ].
  Qed.
  Lemma dicts_ok : dicts v dict_names = Ok vs0.
  Proof.
    destruct counts as (C1 & C2 & C3 & C4 & C5 & C6 & C7).
    assert (S1 : forall K x, In (K, x) scal -> In K ["STATION_ID"; "GEO_N"; "GEO_E"; "GEO_EL"; "N_STD"; "N_FEE"; "N_RPD"; "N_ARB"; "N_ARBCH"; "N_SNAP"; "N_SNAPCH"]%string -> dict v x = Ok (pvof (value es K []))).
    { intros K x A B. unfold dict. rewrite (scal_val K x A (has K B)). reflexivity. }
    assert (S2 : forall K N m x n, In (K, (N, (m, x))) eaches -> declared es N = Some n -> n = num es N -> dict v x = Ok (col (m * n) K)).
    { intros K N m x n A B E. subst n. unfold dict. rewrite (each_val _ _ _ _ A B). reflexivity. }
    assert (S3 : forall K N M x n m, In (K, (N, (M, x))) grids -> declared es N = Some n -> n = num es N -> declared es M = Some m -> m = num es M -> dict v x = Ok (col2 n m K)).
    { intros K N M x n m A B E B' E'. subst n m. unfold dict. rewrite (grid_val _ _ _ _ A B B'). reflexivity. }
    assert (S4 : dict v "stdPos" = Ok (VL (map (fun i => VL [pvof (value es "STD_LX" [i]); pvof (value es "STD_LY" [i]); pvof (value es "STD_LZ" [i])]) (R ns)))).
    { unfold dict. rewrite (proj2 (i_pos _ _ IV) ns C1). reflexivity. }
    assert (S5 : dict v "nChanARX" = Ok (VI nc)).
    { rewrite (S1 "N_ARBCH"%string "nChanARX"%string) by in_list. destruct (cntin_val "N_ARBCH" "N_ARB" no_default eq_refl (has "N_ARBCH"%string ltac:(in_list))) as (_ & _ & _ & ->). reflexivity. }
    unfold dict_names. cbn [dicts].
    rewrite (S1 "STATION_ID"%string "idn"%string), (S1 "GEO_N"%string "lat"%string), (S1 "GEO_E"%string "lon"%string), (S1 "GEO_EL"%string "elv"%string) by in_list.
    rewrite S4, S5.
    repeat (first [ erewrite S2 by first [solve [in_list] | eassumption | reflexivity] | erewrite S3 by first [solve [in_list] | eassumption | reflexivity] ]).
    reflexivity.
  Qed.

  Hypothesis WI : wired es.
  Definition S_ i := mkStand i (T1_ "STD_LX" i) (T1_ "STD_LY" i) (T1_ "STD_LZ" i).
  Definition F_ i := mkFee (T1_ "FEE_ID" i) i (T1_ "FEE_GAI1" i) (T1_ "FEE_GAI2" i) (I1_ "FEE_STAT" i).
  Definition C0_ i := mkCable (T1_ "RPD_ID" i) (T1_ "RPD_LENG" i) (T1_ "RPD_VF" i) (T1_ "RPD_DD" i) (T1_ "RPD_A0" i) (T1_ "RPD_A1" i) (T1_ "RPD_STR" i) (T1_ "RPD_FREF" i) 0.
  Definition C_ m1 m2 m3 r := if r <=? ns then with_atten ((I1_ "ASP_AT1" r - m1) * 4 + (I1_ "ASP_AT2" r - m2) * 4 + (I1_ "ASP_AT3" r - m3)) (C0_ r) else C0_ r.
  Definition A0_ i := mkAnt i (S_ (I1_ "ANT_STD" i)) (I1_ "ANT_ORIE" i) (T1_ "ANT_THETA" i) (T1_ "ANT_PHI" i) (I1_ "ANT_STAT" i) None 1 None None 0 0 [].
  Definition X_ b c := mkArx (match parse_int (T1_ "ARB_ID" b) with Some z => z | None => 0 end) c ((b - 1) * nc + c) (text_at es "ARB_IN" [b; c]) (text_at es "ARB_OUT" [b; c]).
  Definition fl1 := map (fun i => (F_ i, I1_ "FEE_ANT1" i)) (R nf).
  Definition fl2 := map (fun i => (F_ i, I1_ "FEE_ANT2" i)) (R nf).
  Definition cl m1 m2 m3 := map (fun i => (C_ m1 m2 m3 i, I1_ "RPD_ANT" i)) (R nr).
  Definition xl := flat_map (fun b => flat_map (fun c => let n := int_at es "ARB_ANT" [b; c] in if (n =? 0) || (512 <? n) then [] else [(X_ b c, n)]) (R nc)) (R nb).
  Definition sl := flat_map (fun b => map (fun c => ((b, ((b - 1) * nk + c, text_at es "SNAP_INR" [b; c])), int_at es "SNAP_ANT" [b; c])) (R nk)) (R nw).
  Definition Fin m1 m2 m3 k := hits set_snap sl k (hits set_arx xl k (hits set_cable (cl m1 m2 m3) k (hits (set_fee 2) fl2 k (hits (set_fee 1) fl1 k (A0_ k))))).

  Lemma in_R : forall i n, In i (R n) <-> is_in i n.
  Proof. intros. apply R_In. Qed.

  Lemma build_ok : exists m1 m2 m3 name iface, py_min (map (I1_ "ASP_AT1") (R ns)) = Ok m1 /\ py_min (map (I1_ "ASP_AT2") (R ns)) = Ok m2 /\ py_min (map (I1_ "ASP_AT3") (R ns)) = Ok m3 /\
    build v = Ok (mkStation name (text_at es "STATION_ID" []) (text_at es "GEO_N" []) (text_at es "GEO_E" []) (text_at es "GEO_EL" []) iface
      (sort_dig (map (Fin m1 m2 m3) (R (2 * ns)))) (int_at es "DRX_GAIN" [])) /\
    (name, iface) = match find_name (text_at es "STATION_ID" []) id2name with Some n => (n, has_iface (text_at es "STATION_ID" [])) | None => (tx "New LWA Station", false) end.
  Proof.
    destruct counts as (C1 & C2 & C3 & C4 & C5 & C6 & C7).
    destruct (cntin_val "N_ARBCH" "N_ARB" no_default eq_refl (has "N_ARBCH"%string ltac:(in_list))) as (_ & NC0 & _).
    destruct (cntin_val "N_SNAPCH" "N_SNAP" no_default eq_refl (has "N_SNAPCH"%string ltac:(in_list))) as (_ & NK0 & _).
    pose proof some_stands as NS.
    destruct (py_min_map (I1_ "ASP_AT1") ns NS) as [m1 M1]. destruct (py_min_map (I1_ "ASP_AT2") ns NS) as [m2 M2]. destruct (py_min_map (I1_ "ASP_AT3") ns NS) as [m3 M3].
    exists m1, m2, m3. unfold build. rewrite dicts_ok. cbn [bind]. cbv zeta.
    unfold at_, vs0. cbn [nth]. unfold col.
    rewrite !Z.mul_1_l, !ints_tab, !strs_tab. unfold col2. rewrite !ints_tab2, !strs_tab2.
    change (fun i => int_at es "ASP_AT1" [i]) with (I1_ "ASP_AT1"). change (fun i => int_at es "ASP_AT2" [i]) with (I1_ "ASP_AT2"). change (fun i => int_at es "ASP_AT3" [i]) with (I1_ "ASP_AT3").
    rewrite M1, M2, M3. cbn [bind as_list as_int].
    (* stands *)
    rewrite number_map, map_map.
    match goal with |- context [make_ants (map ?f (R ns))] => replace (map f (R ns)) with (map S_ (R ns)) by
      (apply map_ext; intro i; unfold make_stand, strs, S_, T1_; cbn [fst snd as_list map nth]; now rewrite !str_pv) end.
    (* fees *)
    unfold make_fees. rewrite !combine_map2. rewrite !number_map.
    rewrite (map_map _ _ (R nf)).
    match goal with |- context [combine (map ?f (R nf)) (map (fun i => int_at es "FEE_ANT1" [i]) (R nf))] => change f with F_ end.
    rewrite make_ants_map with (S := S_) (sa := fun i => int_at es "ANT_STD" [i]) by (intros i II; apply in_R in II; now apply (w_stand _ WI)).
    cbn [bind]. change (map (fun i => mkAnt i (S_ (int_at es "ANT_STD" [i])) (int_at es "ANT_ORIE" [i]) (text_at es "ANT_THETA" [i]) (text_at es "ANT_PHI" [i]) (int_at es "ANT_STAT" [i]) None 1 None None 0 0 []) (R (2 * ns)))
      with (map A0_ (R (2 * ns))).
    rewrite !combine_map2. change (map (fun x => (F_ x, int_at es "FEE_ANT1" [x])) (R nf)) with fl1. change (map (fun x => (F_ x, int_at es "FEE_ANT2" [x])) (R nf)) with fl2.
    rewrite each_map. 2:{ unfold fl1. intros x k X. apply in_map_iff in X as (i & X & II). injection X as _ <-. apply in_R in II. apply (w_fee _ WI 1 i); [now left|exact II]. }
    cbn [bind]. rewrite each_map. 2:{ unfold fl2. intros x k X. apply in_map_iff in X as (i & X & II). injection X as _ <-. apply in_R in II. apply (w_fee _ WI 2 i); [now right|exact II]. }
    cbn [bind].
    (* cables *)
    unfold make_cables. rewrite !combine_map2, map_map. change (map _ (R nr)) with (map C0_ (R nr)) at 1.
    rewrite attenuate_map. rewrite combine_map2.
    match goal with |- context [each set_cable ?l _] => change l with (cl m1 m2 m3) end.
    rewrite each_map. 2:{ unfold cl. intros x k X. apply in_map_iff in X as (i & X & II). injection X as _ <-. apply in_R in II. now apply (w_rpd _ WI). }
    cbn [bind].
    (* ARX *)
    rewrite map_length, R_length, zrange_len.
    replace (zrange nb) with (map (fun i => i - 1) (R nb)) by (unfold R; rewrite map_map; rewrite <- (map_id (zrange nb)) at 2; apply map_ext; intro; lia).
    rewrite !combine_map2.
    rewrite arx_rows_map.
    2:{ intros i name an ins outs X j n io Y. apply in_map_iff in X as (b & X & BI). injection X as <- <- <- <- <-. apply in_R in BI. rewrite map_length, R_length, zrange_len in Y.
        replace (zrange nc) with (map (fun i => i - 1) (R nc)) in Y by (unfold R; rewrite map_map; rewrite <- (map_id (zrange nc)) at 2; apply map_ext; intro; lia).
        rewrite !combine_map2 in Y. apply in_map_iff in Y as (c & Y & CI). injection Y as <- <- <-. apply in_R in CI. destruct (w_arb _ WI b c BI CI) as [Z0|[(_ & Z1 & Z2)|Z1]]; [now left|right; right; split; [exact Z1|exact Z2]|right; left; exact Z1]. }
    cbn [bind].
    match goal with |- context [hits set_arx ?l _ _] => replace l with xl end.
    2:{ unfold xl. rewrite !flat_map_concat_map, map_map. f_equal. apply map_ext. intro b. rewrite map_length, R_length, zrange_len.
        replace (zrange nc) with (map (fun i => i - 1) (R nc)) by (unfold R; rewrite map_map; rewrite <- (map_id (zrange nc)) at 2; apply map_ext; intro; lia).
        rewrite !combine_map2. unfold arx_list. rewrite !flat_map_concat_map, map_map. f_equal. apply map_ext. intro c. cbv beta iota zeta. destruct (_ || _); [reflexivity|]. unfold X_, T1_.
        replace (c - 1 + 1) with c by lia. replace ((b - 1) * nc + (c - 1) + 1) with ((b - 1) * nc + c) by lia. reflexivity. }
    (* SNAP *)
    match goal with |- context [snap_rows 1 1 ?l] => replace (snap_rows 1 1 l) with sl end.
    2:{ unfold sl. assert (RW : R nw = map (fun k => Z.of_nat k + 1) (seq 0 (Z.to_nat nw))) by (unfold R, zrange; now rewrite map_map). rewrite RW. symmetry. etransitivity; [exact (snap_rows_map nk (fun i j => int_at es "SNAP_ANT" [i; j]) (fun i j => text_at es "SNAP_INR" [i; j]) (Z.to_nat nw) 0 1 NK0)|].
        rewrite !flat_map_concat_map. f_equal. apply map_ext. intro b. apply map_ext. intro c. f_equal. f_equal. f_equal. cbn [Z.of_nat]. lia. }
    rewrite each_map. 2:{ unfold sl. intros x k X. apply in_flat_map in X as (b & BI & X). apply in_map_iff in X as (c & X & CI). injection X as _ <-. apply in_R in BI, CI. now apply (w_snap _ WI). }
    cbn [bind]. rewrite !str_pv.
    assert (G : match v "drxGai"%string with Some w => as_int w | None => 0 end = int_at es "DRX_GAIN" []).
    { rewrite (i_scal _ _ IV "DRX_GAIN"%string "drxGai"%string) by in_list. unfold int_at. destruct (said es "DRX_GAIN" []) as [w|] eqn:SD.
      - rewrite (value_said _ _ _ _ SD). destruct w; reflexivity.
      - rewrite (value_default _ _ _ _ _ _ SD eq_refl). reflexivity. }
    rewrite G. change (map (fun k => hits set_snap sl k _) (R (2 * ns))) with (map (Fin m1 m2 m3) (R (2 * ns))).
    destruct (find_name (text_at es "STATION_ID" []) id2name) as [nm|]; do 2 eexists; repeat split.
  Qed.
End Build.
