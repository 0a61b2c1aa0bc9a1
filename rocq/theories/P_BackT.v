From Coq Require Import List ZArith Bool QArith Lia Lqa.
From Verif Require Import M_Py M_Num P_Num M_Back S_Back P_Back.
Import ListNotations.
Open Scope Z_scope.

(** C147: the tiles along an axis follow each other without a gap and without overlap, each is half a window wide, give or take half a
    pixel, its center is taken to within a quarter of a pixel, and at most half a window of pixels at the end of the axis are in none. *)
Lemma C147_tiles_partial_proof : forall n window t, 0 <= n -> 0 < window -> tiles n window = Ok t ->
  (forall i, 0 <= i < t -> tile_to n window i = tile_from window (i + 1) /\ window - 1 <= 2 * (tile_to n window i - tile_from window i) <= window + 1 /\
     (- (1 # 4) <= tile_center window i - (inject_Z (tile_from window i) + inject_Z (tile_to n window i)) / 2 <= 1 # 4)%Q) /\
  tile_from window 0 = 0 /\ 0 <= n - tile_from window t < window /\ 2 * (n - tile_from window t) <= window.
Proof.
  intros n window t N W T. unfold tiles in T. destruct (Z.eqb_spec window 0); [lia|]. assert (T1 : 2 * n / window = t) by congruence. clear T. pose proof (Z.div_mod (2 * n) window ltac:(lia)) as D. pose proof (Z.mod_pos_bound (2 * n) window W) as M. rewrite T1 in D. set (r := (2 * n) mod window) in *. clearbody r. clear T1. rewrite (Z.mul_comm window t) in D.
  assert (H2 : forall a, 2 * (a / 2) <= a <= 2 * (a / 2) + 1) by (intro a; pose proof (Z.div_mod a 2 ltac:(lia)); pose proof (Z.mod_pos_bound a 2 ltac:(lia)); lia).
  unfold tile_to, tile_from, tile_center. split; [|split; [reflexivity|]].
  - intros i I. pose proof (H2 (i * window)) as A. pose proof (H2 ((i + 1) * window)) as B. assert (C : (i + 1) * window <= t * window) by (apply Z.mul_le_mono_nonneg_r; lia). assert (E : (i + 1) * window = i * window + window) by ring.
    set (a := i * window / 2) in *. set (b := (i + 1) * window / 2) in *. rewrite E in B, C. clearbody a b. assert (BN : b <= n) by lia. rewrite (Z.min_r n b) by exact BN. split; [reflexivity|]. split; [lia|]. 
    assert (F : window - 1 <= 2 * (b - a) <= window + 1) by lia. assert (Q1 : (inject_Z window - 1 <= 2 * (inject_Z b - inject_Z a) <= inject_Z window + 1)%Q).
    { assert (L : forall u v, u <= v -> (inject_Z u <= inject_Z v)%Q) by (intros u v; rewrite Zle_Qle; exact (fun h => h)). destruct F as [F1 F2]. apply L in F1, F2.
      assert (E1 : (inject_Z (window - 1) == inject_Z window - 1)%Q) by (unfold Qeq, Qminus, Qplus, inject_Z; cbn [Qnum Qden Qopp]; lia). assert (E2 : (inject_Z (window + 1) == inject_Z window + 1)%Q) by (unfold Qeq, Qplus, inject_Z; cbn [Qnum Qden]; lia).
      assert (E3 : (inject_Z (2 * (b - a)) == 2 * (inject_Z b - inject_Z a))%Q) by (unfold Qeq, Qmult, Qminus, Qplus, inject_Z; cbn [Qnum Qden Qopp]; lia). rewrite E1, E3 in F1. rewrite E2, E3 in F2. split; assumption. }
    set (x := inject_Z a) in *. set (y := inject_Z b) in *. set (w := inject_Z window) in *. clearbody x y w. assert (Ew : (w / 4 == w * (1 # 4))%Q) by field. assert (Ex : ((x + y) / 2 == (x + y) * (1 # 2))%Q) by field. rewrite Ew, Ex. split; lra.
  - pose proof (H2 (t * window)) as A. set (a := t * window / 2) in *. clearbody a. nia.
Qed.
(** C147: so with a window of two or more pixels no tile is a window wide, and none overlaps the next. *)
Lemma C147_overlap_refuted_proof : forall n window t i, 0 <= n -> 2 <= window -> tiles n window = Ok t -> 0 <= i < t ->
  tile_to n window i - tile_from window i < window /\ ~ exists x, tile_from window i <= x < tile_to n window i /\ tile_from window (i + 1) <= x.
Proof.
  intros n window t i N W T I. destruct (C147_tiles_partial_proof n window t N ltac:(lia) T) as (A & _). destruct (A i I) as (B & C & _). split; [lia|]. intros (x & X & Y). lia.
Qed.
(** An axis of 100 pixels and a window of 15: 13 tiles, of 7 or 8 pixels, and 3 pixels left. *)
Lemma C147_example_proof : tiles 100 15 = Ok 13 /\ map (fun i => tile_to 100 15 i - tile_from 15 i) [0; 1; 2; 12] = [7; 8; 7; 7] /\ 100 - tile_from 15 13 = 3 /\ tiles 100 0 = Raise ZeroDivisionError.
Proof. repeat split; reflexivity. Qed.

(** C148: a tile whose pixels are not all alike has a value, from the pixels less than three standard deviations from the mean, which are
    not none: when this changes the deviation by at most a fifth, it is their mean, which is within the range of the tile, and otherwise
    2.5 times their median less 1.5 times their mean. *)
Lemma C148_value_partial_proof : forall median l, l <> [] -> ~ constant l ->
  exists keep v, (exists f, keep = filter f l) /\ (forall x, In x keep <-> In x l /\ near l x) /\ keep <> [] /\ basis median l = Some v /\
    (empty_field l keep -> (v == avg keep)%Q /\ forall lo hi, between lo hi l -> (lo <= v <= hi)%Q) /\
    (~ empty_field l keep -> (v == (5 # 2) * median keep - (3 # 2) * avg keep)%Q).
Proof.
  intros median l N C. assert (V : (0 < variance l)%Q).
  { pose proof (variance_nonneg l) as P. destruct (Qlt_le_dec 0 (variance l)) as [|Q1]; [assumption|]. exfalso. apply C. apply zero_variance. lra. }
  pose proof (clipped_some l N V) as K. exists (clipped l). unfold basis. destruct (clipped l) as [|c r] eqn:E; [congruence|]. rewrite <- E in *. eexists. split; [unfold clipped; eexists; reflexivity|]. split; [apply clipped_near|]. split; [exact K|]. split; [reflexivity|].
  assert (EF : empty_field l (clipped l) <-> Qle_bool ((16 # 25) * variance l) (variance (clipped l)) && Qle_bool (variance (clipped l)) ((36 # 25) * variance l) = true).
  { unfold empty_field. rewrite <- !variance_dev2, andb_true_iff, !Qle_bool_iff. reflexivity. }
  split.
  - intro F. apply EF in F. rewrite F. split; [reflexivity|]. intros lo hi B. apply mean_between; [exact K|]. intros x X. apply B. apply clipped_near in X. tauto.
  - intro F. destruct (Qle_bool ((16 # 25) * variance l) (variance (clipped l)) && Qle_bool (variance (clipped l)) ((36 # 25) * variance l)) eqn:G; [exfalso; apply F; apply EF; reflexivity|]. reflexivity.
Qed.
(** C148: a tile whose pixels are all alike, as in an empty part of an image, has none: nothing is less than three times zero from the
    mean. *)
Lemma C148_constant_refuted_proof : forall median l, constant l -> basis median l = None.
Proof.
  intros median l H. destruct (variance_constant l H) as [V Z0]. assert (E : clipped l = []).
  { unfold clipped. set (m := mean l) in *. set (v := variance l) in *. clearbody m v. clear H. induction l as [|x l IH]; [reflexivity|]. cbn [filter]. replace (Qle_bool (9 * v) ((x - m) * (x - m))) with true by (symmetry; apply Qle_bool_iff; rewrite V, (Z0 x (or_introl eq_refl)); lra). cbn [negb]. apply IH. intros y Y. apply Z0. right. exact Y. }
  unfold basis. rewrite E. reflexivity.
Qed.
(** Four pixels, and four that are alike. *)
Lemma C148_example_proof : match basis (fun _ => 0%Q) [1%Q; 2%Q; 3%Q; 4%Q] with Some v => (v == 5 # 2)%Q | None => False end /\ basis (fun _ => 7%Q) [7%Q; 7%Q; 7%Q; 7%Q] = None /\
  match basis (fun _ => 1%Q) (100%Q :: repeat 0%Q 10) with Some v => (v == 5 # 2)%Q | None => False end.
Proof. split; [vm_compute; reflexivity|]. split; vm_compute; reflexivity. Qed.
