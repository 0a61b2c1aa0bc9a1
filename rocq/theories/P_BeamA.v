(** The whole beam former. *)
From Coq Require Import List ZArith QArith Qcanon Bool Lia.
From Verif Require Import LibList M_Py M_Base M_Corr M_CorrPy S_Corr P_Corr P_CorrPick P_CorrFX M_Beam S_Beam P_Beam.
Import ListNotations.
Open Scope Z_scope.

Lemma combine_self {A B} (d : A) (e : B) l : forall r, zlen r = zlen l -> combine l r = map (fun i => (znth d i l, znth e i r)) (range 0 (zlen l)).
Proof.
  intros r H. rewrite <- (znth_self A d l) at 1. rewrite <- (znth_self B e r) at 1. rewrite H.
  generalize (range 0 (zlen l)) as q. induction q as [|x q IH]; [reflexivity|]. cbn [map combine]. rewrite IH. reflexivity.
Qed.
Lemma filter_map_comm {A B} (f : A -> B) p l : filter p (map f l) = map f (filter (fun x => p (f x)) l).
Proof. induction l as [|x l IH]; [reflexivity|]. cbn [map filter]. rewrite IH. destruct (p (f x)); reflexivity. Qed.
Lemma filter_ext_in' {A} (p q : A -> bool) l : (forall x, In x l -> p x = q x) -> filter p l = filter q l.
Proof. intro H. apply filter_ext_in. exact H. Qed.
Lemma in_range_list i n : In i (range 0 n) <-> 0 <= i < n.
Proof. unfold range. rewrite in_map_iff. split; [intros (k & <- & H); apply in_seq in H; lia|intro H; exists (Z.to_nat i); split; [lia|apply in_seq; lia]]. Qed.

Lemma calc_delay_ok src light ants fr az alt : in_range az alt -> (exists a, In a ants /\ b_stand a <= 256) ->
  calc_delay src light ants fr az alt = Ok (map (fun a => map (fun f => Some (delay_at (src az alt) light ants a f)) fr) ants).
Proof.
  intros R (a & I & S). destruct (in_range_dec az alt) as [H _]. rewrite (H R). f_equal. rewrite centre_spec.
  assert (N : In a (filter (fun a => b_stand a <=? 256) ants)) by (apply filter_In; split; [exact I|apply Z.leb_le; exact S]).
  unfold delay_at. destruct (filter _ ants) as [|x l]; [destruct N|]. apply map_ext. intro b. apply map_ext. intro f. rewrite vdot_along, vsub_from. reflexivity.
Qed.
Lemma calc_delay_nan src light ants fr az alt : in_range az alt -> (forall a, In a ants -> 256 < b_stand a) ->
  calc_delay src light ants fr az alt = Ok (map (fun _ => map (fun _ => None) fr) ants).
Proof.
  intros R H. destruct (in_range_dec az alt) as [K _]. rewrite (K R). rewrite centre_spec.
  assert (N : filter (fun a => b_stand a <=? 256) ants = []).
  { clear K. induction ants as [|x l IH]; [reflexivity|]. cbn [filter]. assert (T := H x (or_introl eq_refl)). destruct (b_stand x <=? 256) eqn:E; [apply Z.leb_le in E; lia|]. apply IH. intros y Hy. apply H. right. exact Hy. }
  rewrite N. reflexivity.
Qed.
Lemma cube_at nC nT rows i c t : 0 <= c < nC -> 0 <= t < nT -> cube nC nT rows (i * nC * nT + c * nT + t) = znth c0 t (znth [] c (znth [] i rows)).
Proof.
  intros C T. unfold cube.
  assert (E1 : (i * nC * nT + c * nT + t) mod nT = t) by (symmetry; apply (Z.mod_unique_pos _ _ (i * nC + c)); lia).
  assert (E2 : (i * nC * nT + c * nT + t) / nT = i * nC + c) by (symmetry; apply (Z.div_unique_pos _ _ _ t); lia).
  assert (E3 : (i * nC * nT + c * nT + t) / (nC * nT) = i) by (symmetry; apply (Z.div_unique_pos _ _ _ (c * nT + t)); nia).
  rewrite E1, E2, E3. replace ((i * nC + c) mod nC) with c by (apply (Z.mod_unique_pos _ _ i); lia). reflexivity.
Qed.
Lemma flat_at n rows junk i c : 0 <= c < n -> 0 <= i < zlen rows -> flat n rows junk (i * n + c) = znth c0 c (znth [] i rows).
Proof.
  intros C I. unfold flat. assert (T : (0 <=? i * n + c) && (i * n + c <? zlen rows * n) = true) by (apply andb_true_iff; rewrite Z.leb_le, Z.ltb_lt; nia). rewrite T.
  replace ((i * n + c) mod n) with c by (apply (Z.mod_unique_pos _ _ i); lia). replace ((i * n + c) / n) with i by (apply (Z.div_unique_pos _ _ _ c); lia). reflexivity.
Qed.
Lemma c_times_cmul z w : c_times z w = cmul z w. Proof. destruct z, w. reflexivity. Qed.
Lemma combine_map_r {A B} (f : A -> B) l : combine l (map f l) = map (fun x => (x, f x)) l.
Proof. induction l as [|x l IH]; [reflexivity|]. cbn. rewrite IH. reflexivity. Qed.
Theorem beam_ok src light E ants nTime data freq az alt : in_range az alt -> (exists a, In a ants /\ b_stand a <= 256) -> freq <> [] -> zlen data = zlen ants -> 0 <= nTime ->
  let delay := delay_at (src az alt) light ants in
  exists tmin, least (flat_map (fun a => map (delay a) freq) ants) tmin /\
  phase_and_sum src light E ants nTime data freq az alt = Ok (Some (map (beam_of E delay tmin ants freq nTime data)
    (if existsb (good_pol 0) ants then if existsb (good_pol 1) ants then [0; 1] else [0] else [1]))).
Proof.
  intros R X NF LD HT delay. assert (NA : ants <> []) by (destruct X as (a & I & _); intros ->; destruct I).
  set (d := map (fun a => map (delay a) freq) ants). exists (match concat d with x :: l => qmin x l | [] => 0%Qc end).
  assert (NC : concat d <> []).
  { unfold d. destruct ants as [|a ants]; [congruence|]. destruct freq; [congruence|]. discriminate. }
  split.
  - rewrite flat_map_concat_map. fold d. destruct (concat d) as [|x l]; [congruence|]. apply qmin_least.
  - unfold phase_and_sum. rewrite (calc_delay_ok _ _ _ _ _ _ R X). fold delay. cbn [bind].
    destruct (concat (map (fun a => map (fun f => Some (delay a f)) freq) ants)) as [|o r] eqn:EC.
    { exfalso. destruct ants as [|a ants']; [congruence|]. destruct freq; [congruence|]. discriminate. }
    clear EC o r. rewrite map_map. erewrite map_ext by (intro; apply all_some_map). rewrite all_some_map. fold d.
    set (tmin := match concat d with x :: l => qmin x l | [] => 0%Qc end). clearbody tmin.
    set (bln := map (fun row => map (fun fd => E (fst fd * (snd fd - tmin))%Qc) (combine freq row)) d).
    set (V := fun p i => znth false i (map (good_pol p) ants)).
    assert (B : forall p, 0 <= p < 2 -> cells (zlen freq) nTime (p * zlen freq * nTime) (bengine (zlen ants) (zlen freq) nTime (flat (zlen freq) bln (fun _ => c0)) (cube (zlen freq) nTime data) (V 0) (V 1))
        = beam_of E delay tmin ants freq nTime data p).
    { intros p P. unfold cells, beam_of. rewrite !upto_range. apply map_ext_in. intros k Hk. apply in_range_list in Hk. cbv zeta. apply map_ext_in. intros t Ht. apply in_range_list in Ht.
      replace (p * zlen freq * nTime + nTime * k + t) with (p * zlen freq * nTime + k * nTime + t) by lia.
      rewrite bengine_mean by (try assumption; try (unfold zlen; lia)).
      pose proof X as (a0 & _ & _). change complex with C in *.
      rewrite (combine_self a0 [] ants data LD), filter_map_comm, map_map. f_equal. cbn [fst snd].
      assert (EV : (if p =? 0 then V 0 else V 1) = V p) by (assert (p = 0 \/ p = 1) as [->| ->] by lia; reflexivity). rewrite EV.
      erewrite (filter_ext_in' (V p)).
      - apply map_ext_in. intros i Hi. apply filter_In in Hi. destruct Hi as [Hi _]. apply in_range_list in Hi.
        rewrite cube_at by assumption. rewrite flat_at; [|assumption|unfold bln, d, zlen; rewrite !map_length; unfold zlen in Hi; lia].
        assert (EB : znth c0 k (znth [] i bln) = E (znth 0%Qc k freq * (delay (znth a0 i ants) (znth 0%Qc k freq) - tmin))%Qc).
        { unfold bln, d. rewrite map_map. rewrite (znth_map _ _ _ a0) by exact Hi. rewrite combine_map_r, map_map. cbn [fst snd]. rewrite (znth_map _ _ _ 0%Qc) by exact Hk. reflexivity. }
        rewrite EB. symmetry. apply c_times_cmul.
      - intros i Hi. apply in_range_list in Hi. unfold V. rewrite (znth_map _ _ _ a0) by exact Hi. reflexivity. }
    cbv zeta. fold bln. change (fun i => znth false i (map (good_pol 0) ants)) with (V 0). change (fun i => znth false i (map (good_pol 1) ants)) with (V 1).
    rewrite (B 0), (B 1) by lia. destruct (existsb (good_pol 0) ants); cbn [negb]; [|reflexivity]. destruct (existsb (good_pol 1) ants); reflexivity.
Qed.
Theorem beam_empty src light E nTime data freq az alt : phase_and_sum src light E [] nTime data freq az alt = Raise ValueError.
Proof. unfold phase_and_sum, calc_delay. destruct (_ || _); [reflexivity|]. destruct (_ || _); reflexivity. Qed.
Theorem beam_range src light E ants nTime data freq az alt : ~ in_range az alt -> phase_and_sum src light E ants nTime data freq az alt = Raise ValueError.
Proof. intro R. destruct (in_range_dec az alt) as [_ H]. unfold phase_and_sum. rewrite (H R). reflexivity. Qed.
