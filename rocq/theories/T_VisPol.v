(** Property theorems (generated from P_VisPolT.v by tools/gen_theorems.py). *)
From Coq Require Import String.
From Coq Require Import List ZArith QArith Qcanon Bool Lia.
From Verif Require Import M_Vis M_VisPol S_Vis S_VisPol P_Base P_Vis P_Vis2 P_Vis3 P_VisPol P_VisPol2 P_VisPol3 P_VisData P_VisPol4 P_VisT P_VisPolT.
Import ListNotations.
Open Scope Z_scope.

(** append() of data to a polarization whose weights and mask have the shape of its data succeeds exactly if the new
    data has the shape of what is there. *)
Theorem C61_append_iff_partial : forall p d w m, shape (q_wgt p) = shape (q_data p) -> shape (q_mask p) = shape (q_data p) ->
  (forall x, w = Some x -> shape x = shape d) -> (forall x, m = Some x -> shape x = shape d) ->
  (snd (append3 p d w m) = Ok tt <-> shape d = shape (q_data p)).
Proof. exact C61_append_iff_partial_proof. Qed.
Print Assumptions C61_append_iff_partial.

Example C61_append_example : append3 (new3 (Some (N1 [ex_c 1; ex_c 2])) None None) (N1 [ex_c 3; ex_c 4]) None None =
  (mk3 (N2 2 [[ex_c 1; ex_c 2]; [ex_c 3; ex_c 4]]) (N2 2 [[1%Qc; 1%Qc]; [1%Qc; 1%Qc]]) (N2 2 [[false; false]; [false; false]]), Ok tt).
Proof. exact C61_append_example_proof. Qed.

(** REFUTED: to a new polarization no visibility can be added: a ValueError, after which the data is there and its
    weights and mask are not. *)
Theorem C61_append_first_refuted : forall l, l <> [] ->
  append3 (new3 None None None) (N1 l) None None = (mk3 (N1 l) (N1 []) (N1 []), Raise ValueError).
Proof. exact C61_append_first_refuted_proof. Qed.
Print Assumptions C61_append_first_refuted.

(** REFUTED: nor to one that has two or more: the same error, and one more row of data than of weights. *)
Theorem C61_append_more_refuted : forall p c rows l, shape (q_wgt p) = shape (q_data p) -> shape (q_mask p) = shape (q_data p) ->
  q_data p = N2 c rows -> (0 < length rows * c)%nat -> length l = c ->
  append3 p (N1 l) None None = (mk3 (N2 c (rows ++ [l])) (q_wgt p) (q_mask p), Raise ValueError).
Proof. exact C61_append_more_refuted_proof. Qed.
Print Assumptions C61_append_more_refuted.

Example C61_append_more_example : let p := new3 (Some (N2 1 [[ex_c 1]; [ex_c 2]])) None None in
  shape (q_wgt p) = shape (q_data p) /\ snd (append3 p (N1 [ex_c 3]) None None) = Raise ValueError /\ nd_len (q_data (fst (append3 p (N1 [ex_c 3]) None None))) = 3%nat /\ nd_len (q_wgt (fst (append3 p (N1 [ex_c 3]) None None))) = 2%nat.
Proof. exact C61_append_more_example_proof. Qed.

(** REFUTED: extend() of a new polarization stops at the first visibility. *)
Theorem C61_extend_refuted : forall l rows, l <> [] -> extend3 (new3 None None None) (N1 l :: rows) = (mk3 (N1 l) (N1 []) (N1 []), Raise ValueError).
Proof. exact C61_extend_refuted_proof. Qed.
Print Assumptions C61_extend_refuted.

(** extend() is one append() after the other, up to the first error. *)
Theorem C61_extend : forall p l m, extend3 p (l ++ m) = match extend3 p l with (p, Raise e) => (p, Raise e) | (p, Ok _) => extend3 p m end.
Proof. exact C61_extend_proof. Qed.
Print Assumptions C61_extend.

Theorem C61_extend_one : forall p d, extend3 p [d] = append3 p d None None.
Proof. exact C61_extend_one_proof. Qed.
Print Assumptions C61_extend_one.

Example C61_extend_example : let p := extend3 (new3 (Some (N1 [ex_c 1])) None None) [N1 [ex_c 3]; N1 [ex_c 4]] in
  snd p = Raise ValueError /\ q_data (fst p) = N2 1 [[ex_c 1]; [ex_c 3]; [ex_c 4]] /\ q_wgt (fst p) = N2 1 [[1%Qc]; [1%Qc]].
Proof. exact C61_extend_example_proof. Qed.

(** A polarization made of visibilities alone has the name in capitals, the weight one and no mask for each of them. *)
Theorem C61_new : forall n d, p_pol (new_pds n d None None) = upper n /\ p_data (new_pds n d None None) = d /\
  Forall2 (Forall2 (fun _ w => w = 1%Qc)) d (p_wgt (new_pds n d None None)) /\ Forall2 (Forall2 (fun _ m => m = false)) d (p_mask (new_pds n d None None)).
Proof. exact C61_new_proof. Qed.
Print Assumptions C61_new.

(** Stokes parameters out of linear polarizations: I = XX+YY and Q = XX-YY if both are there, U = XY+YX and
    V = i(XY-YX) if both are there; for every baseline and channel, with the mean of the weights and the union of the
    masks; baselines, uvw and all else as before; the old data set is not touched. *)
Theorem C62_to_stokes : forall (PC : Type) h (v : vds PC) names t, shows h v names t -> regular t ->
  (forall n, In n (product_names stokes_table) -> ~ In n names) -> possible stokes_table names ->
  exists h' c names' t', convert_to_stokes h v = (h', Ok c) /\ shows h' c names' t' /\ made_names stokes_table names names' /\
    Forall2 (fun r r' => made stokes_table names r names' r') t t' /\ same_rest v c /\ shows h' v names t /\ separate v c.
Proof. exact C62_to_stokes_proof. Qed.
Print Assumptions C62_to_stokes.

(** Linear polarizations out of Stokes parameters: XX = (I+Q)/2, YY = (I-Q)/2, XY = (U-iV)/2, YX = (U+iV)/2. *)
Theorem C62_to_linear : forall (PC : Type) h (v : vds PC) names t, shows h v names t -> regular t ->
  (forall n, In n (product_names linear_table) -> ~ In n names) -> possible linear_table names ->
  exists h' c names' t', convert_to_linear h v = (h', Ok c) /\ shows h' c names' t' /\ made_names linear_table names names' /\
    Forall2 (fun r r' => made linear_table names r names' r') t t' /\ same_rest v c /\ shows h' v names t /\ separate v c.
Proof. exact C62_to_linear_proof. Qed.
Print Assumptions C62_to_linear.

(** Circular polarizations out of Stokes parameters: RR = I+V, LL = I-V, RL = Q+iU, LR = Q-iU. *)
Theorem C62_to_circular : forall (PC : Type) h (v : vds PC) names t, shows h v names t -> regular t ->
  (forall n, In n (product_names circular_table) -> ~ In n names) -> possible circular_table names ->
  exists h' c names' t', convert_to_circular h v = (h', Ok c) /\ shows h' c names' t' /\ made_names circular_table names names' /\
    Forall2 (fun r r' => made circular_table names r names' r') t t' /\ same_rest v c /\ shows h' v names t /\ separate v c.
Proof. exact C62_to_circular_proof. Qed.
Print Assumptions C62_to_circular.

Example C62_to_stokes_example : shows ex_h ex_v ex_names ex_table /\ regular ex_table /\
  (forall n, In n (product_names stokes_table) -> ~ In n ex_names) /\ possible stokes_table ex_names /\ ~ possible linear_table ex_names.
Proof. exact C62_to_stokes_example_proof. Qed.

(** A data set that already has one of the new polarizations, or no complete pair of the old, is a RuntimeError. *)
Theorem C62_refused : forall (PC : Type) h (v : vds PC) names t, shows h v names t ->
  ((exists n, In n (product_names stokes_table) /\ In n names) \/ ~ possible stokes_table names -> convert_to_stokes h v = (h, Raise RuntimeError)) /\
  ((exists n, In n (product_names linear_table) /\ In n names) \/ ~ possible linear_table names -> convert_to_linear h v = (h, Raise RuntimeError)) /\
  ((exists n, In n (product_names circular_table) /\ In n names) \/ ~ possible circular_table names -> convert_to_circular h v = (h, Raise RuntimeError)).
Proof. exact C62_refused_proof. Qed.
Print Assumptions C62_refused.

(** From linear to Stokes and back: the visibilities are exactly what they were; the weights and masks of each of the
    two pairs are joined. *)
Theorem C62_linear_round_trip : forall (PC : Type) h (v : vds PC) names t, shows h v names t -> regular t ->
  (forall n, In n (product_names stokes_table) -> ~ In n names) ->
  (forall n, In n (product_names linear_table) -> In n names) ->
  exists h1 s h2 l names2 t2, convert_to_stokes h v = (h1, Ok s) /\ convert_to_linear h1 s = (h2, Ok l) /\
    shows h2 l names2 t2 /\ (forall n, In n names2 <-> In n (product_names linear_table)) /\ same_rest v l /\
    shows h2 v names t /\ separate v l /\
    Forall2 (fun r r2 => r_bl r2 = r_bl r /\ r_uvw r2 = r_uvw r /\
      forall a b ca cb, In (a, b) [("XX", "YY"); ("XY", "YX")]%string -> cell_named names r a ca -> cell_named names r b cb ->
        cell_named names2 r2 a (cell_like (fst (fst ca)) (joined ca cb)) /\
        cell_named names2 r2 b (cell_like (fst (fst cb)) (joined ca cb))) t t2.
Proof. exact C62_linear_round_trip_proof. Qed.
Print Assumptions C62_linear_round_trip.

Example C62_linear_round_trip_example : exists h (v : vds Z), shows h v ex_names4 ex_table4 /\ regular ex_table4 /\
  (forall n, In n (product_names stokes_table) -> ~ In n ex_names4) /\ (forall n, In n (product_names linear_table) -> In n ex_names4) /\
  cell_named ex_names4 (hd ex_row1 ex_table4) "YY" (ex_cell 3 false).
Proof. exact C62_linear_round_trip_example_proof. Qed.

(** Circular polarizations hold all four Stokes parameters. *)
Theorem C62_circular_keeps_stokes : forall x y, chalf (cadd (cadd x y) (csub x y)) = x /\ chalf (csub (cadd x y) (csub x y)) = y /\
  chalf (cadd (cadd x (cmul im y)) (csub x (cmul im y))) = x /\
  chalf (cmul (conj im) (csub (cadd x (cmul im y)) (csub x (cmul im y)))) = y.
Proof. exact C62_circular_keeps_stokes_proof. Qed.
Print Assumptions C62_circular_keeps_stokes.

(** REFUTED: the total intensity is not the same in both bases: XX+YY = I but RR+LL = 2 I. *)
Theorem C62_total_intensity_refuted :
  (forall i q, let xx := chalf (cadd i q) in let yy := chalf (csub i q) in cadd xx yy = i) /\
  (forall i v, let rr := cadd i v in let ll := csub i v in cadd rr ll = cadd i i) /\
  exists i v : C, cadd (cadd i v) (csub i v) <> i.
Proof. exact C62_total_intensity_refuted_proof. Qed.
Print Assumptions C62_total_intensity_refuted.

(** scale_data() gives a new data set in which every visibility of baseline (i, j) is multiplied by conj(g_j) g_i of its
    channel; weights, masks and all else are as before; the old data set is not touched. *)
Theorem C63_scale : forall (PC : Type) h (v : vds PC) names t gains n, shows h v names t -> gains_for gains n t ->
  exists h' c, scale_data h v gains = (h', Ok c) /\ shows h' c names (map (scaled gains) t) /\ same_rest v c /\
    shows h' v names t /\ separate v c.
Proof. exact C63_scale_proof. Qed.
Print Assumptions C63_scale.

Example C63_scale_example : shows ex_h ex_v ex_names ex_table /\ gains_for ex_gains 1 ex_table /\
  map (fun x : C => (this (fst x), this (snd x))) (gain ex_gains (0, 2)) = [(0%Q, (-2)%Q)].
Proof. exact C63_scale_example_proof. Qed.

(** Scaling by one set of gains and then by another is scaling by their products; gains of one change nothing. *)
Theorem C63_scale_twice : forall (PC : Type) h (v : vds PC) names t g1 g2 n, shows h v names t -> gains_for g1 n t -> gains_for g2 n t -> length g1 = length g2 ->
  exists h1 c1 h2 c2, scale_data h v g1 = (h1, Ok c1) /\ scale_data h1 c1 g2 = (h2, Ok c2) /\
    shows h2 c2 names (map (scaled (zipw (zipw cmul) g1 g2)) t) /\ same_rest v c2.
Proof. exact C63_scale_twice_proof. Qed.
Print Assumptions C63_scale_twice.

Theorem C63_scale_unit : forall (PC : Type) h (v : vds PC) names t k n, shows h v names t -> gains_for (repeat (repeat (1%Qc, 0%Qc) n) k) n t ->
  exists h' c, scale_data h v (repeat (repeat (1%Qc, 0%Qc) n) k) = (h', Ok c) /\ shows h' c names t.
Proof. exact C63_scale_unit_proof. Qed.
Print Assumptions C63_scale_unit.

(** All integrations, where all of them list the same baselines. *)
Theorem C63_scale_integrations_partial : forall (PC : Type) h (its : list (@item PC)) gains n bl, all_show h its -> different_dates (sets its) -> uniform its ->
  Forall (fun x => map r_bl (shown_rows x) = bl /\ gains_for gains n (shown_rows x)) its ->
  exists h' its', scale_vdata h (sets its) gains = (h', Ok (sets its')) /\ all_show h' its' /\ all_show h' its /\
    Forall2 (other_rows (fun _ t t' => t' = map (scaled gains) t)) its its'.
Proof. exact C63_scale_integrations_partial_proof. Qed.
Print Assumptions C63_scale_integrations_partial.

(** REFUTED: where they do not, the gains of the baselines of the first integration are applied to all of them. *)
Theorem C63_scale_integrations_refuted : exists h (its : list (@item Z)) gains h' l', all_show h its /\ different_dates (sets its) /\ uniform its /\
  Forall (fun x => gains_for gains 1 (shown_rows x)) its /\ scale_vdata h (sets its) gains = (h', Ok l') /\
  match its, l' with
  | [_; (_, (_, r :: _))], [_; c2] => exists p d, nth_error (v_pols c2) 0 = Some p /\ nth_error (hp h') (snd p) = Some d /\
      map (fst (A := Q) (B := Q)) (map (fun x : C => (this (fst x), this (snd x))) (hd [] (p_data d))) <>
      map (fst (A := Q) (B := Q)) (map (fun x : C => (this (fst x), this (snd x))) (fst (fst (cell_at 0 (scaled gains r)))))
  | _, _ => False
  end.
Proof. exact C63_scale_integrations_refuted_proof. Qed.
Print Assumptions C63_scale_integrations_refuted.
