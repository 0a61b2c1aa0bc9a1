(** Visibilities: adding rows, changing the polarization basis, gains: the theorems. *)
From Coq Require Import String.
From Coq Require Import List ZArith QArith Qcanon Bool Lia.
From Verif Require Import M_Vis M_VisPol S_Vis S_VisPol P_Base P_Vis P_Vis2 P_Vis3 P_VisPol P_VisPol2 P_VisPol3 P_VisData P_VisPol4 P_VisT.
Import ListNotations.
Open Scope Z_scope.

(** ** Adding visibilities to a polarization *)
(** append() of data to a polarization whose weights and mask have the shape of its data succeeds exactly if the new
    data has the shape of what is there. *)
Lemma C61_append_iff_partial_proof : forall p d w m, shape (q_wgt p) = shape (q_data p) -> shape (q_mask p) = shape (q_data p) ->
  (forall x, w = Some x -> shape x = shape d) -> (forall x, m = Some x -> shape x = shape d) ->
  (snd (append3 p d w m) = Ok tt <-> shape d = shape (q_data p)).
Proof. intros p d w m H1 H2 H3 H4. apply append3_iff; auto. split; auto. Qed.
Definition ex_c (x : Z) : C := (Q2Qc (inject_Z x), 0%Qc).
Lemma C61_append_example_proof : append3 (new3 (Some (N1 [ex_c 1; ex_c 2])) None None) (N1 [ex_c 3; ex_c 4]) None None =
  (mk3 (N2 2 [[ex_c 1; ex_c 2]; [ex_c 3; ex_c 4]]) (N2 2 [[1%Qc; 1%Qc]; [1%Qc; 1%Qc]]) (N2 2 [[false; false]; [false; false]]), Ok tt).
Proof. reflexivity. Qed.
(** REFUTED: to a new polarization no visibility can be added: a ValueError, after which the data is there and its
    weights and mask are not. *)
Lemma C61_append_first_refuted_proof : forall l, l <> [] ->
  append3 (new3 None None None) (N1 l) None None = (mk3 (N1 l) (N1 []) (N1 []), Raise ValueError).
Proof. exact append3_first. Qed.
(** REFUTED: nor to one that has two or more: the same error, and one more row of data than of weights. *)
Lemma C61_append_more_refuted_proof : forall p c rows l, shape (q_wgt p) = shape (q_data p) -> shape (q_mask p) = shape (q_data p) ->
  q_data p = N2 c rows -> (0 < length rows * c)%nat -> length l = c ->
  append3 p (N1 l) None None = (mk3 (N2 c (rows ++ [l])) (q_wgt p) (q_mask p), Raise ValueError).
Proof. intros p c rows l H1 H2 H3 H4 H5. apply append3_row; auto. split; auto. Qed.
Lemma C61_append_more_example_proof : let p := new3 (Some (N2 1 [[ex_c 1]; [ex_c 2]])) None None in
  shape (q_wgt p) = shape (q_data p) /\ snd (append3 p (N1 [ex_c 3]) None None) = Raise ValueError /\ nd_len (q_data (fst (append3 p (N1 [ex_c 3]) None None))) = 3%nat /\ nd_len (q_wgt (fst (append3 p (N1 [ex_c 3]) None None))) = 2%nat.
Proof. repeat split. Qed.
(** REFUTED: extend() of a new polarization stops at the first visibility. *)
Lemma C61_extend_refuted_proof : forall l rows, l <> [] -> extend3 (new3 None None None) (N1 l :: rows) = (mk3 (N1 l) (N1 []) (N1 []), Raise ValueError).
Proof. intros l rows N. simpl extend3. rewrite (append3_first l N). reflexivity. Qed.
(** extend() is one append() after the other, up to the first error. *)
Lemma C61_extend_proof : forall p l m, extend3 p (l ++ m) = match extend3 p l with (p, Raise e) => (p, Raise e) | (p, Ok _) => extend3 p m end.
Proof.
  intros p l m. revert p. induction l as [|d l IH]; intro p; [reflexivity|]. cbn [app extend3]. destruct (append3 p d None None) as (q & [u|e]); auto.
Qed.
Lemma C61_extend_one_proof : forall p d, extend3 p [d] = append3 p d None None.
Proof. intros p d. cbn [extend3]. destruct (append3 p d None None) as (q & [[]|e]); reflexivity. Qed.
Lemma C61_extend_example_proof : let p := extend3 (new3 (Some (N1 [ex_c 1])) None None) [N1 [ex_c 3]; N1 [ex_c 4]] in
  snd p = Raise ValueError /\ q_data (fst p) = N2 1 [[ex_c 1]; [ex_c 3]; [ex_c 4]] /\ q_wgt (fst p) = N2 1 [[1%Qc]; [1%Qc]].
Proof. repeat split. Qed.
(** A polarization made of visibilities alone has the name in capitals, the weight one and no mask for each of them. *)
Lemma C61_new_proof : forall n d, p_pol (new_pds n d None None) = upper n /\ p_data (new_pds n d None None) = d /\
  Forall2 (Forall2 (fun _ w => w = 1%Qc)) d (p_wgt (new_pds n d None None)) /\ Forall2 (Forall2 (fun _ m => m = false)) d (p_mask (new_pds n d None None)).
Proof.
  intros n d. split; [reflexivity|]. split; [reflexivity|]. cbn. split; induction d as [|r d IH]; cbn; constructor; auto; induction r; cbn; constructor; auto.
Qed.

(** ** Polarization basis *)
(** Stokes parameters out of linear polarizations: I = XX+YY and Q = XX-YY if both are there, U = XY+YX and
    V = i(XY-YX) if both are there; for every baseline and channel, with the mean of the weights and the union of the
    masks; baselines, uvw and all else as before; the old data set is not touched. *)
Lemma C62_to_stokes_proof : forall (PC : Type) h (v : vds PC) names t, shows h v names t -> regular t ->
  (forall n, In n (product_names stokes_table) -> ~ In n names) -> possible stokes_table names ->
  exists h' c names' t', convert_to_stokes h v = (h', Ok c) /\ shows h' c names' t' /\ made_names stokes_table names names' /\
    Forall2 (fun r r' => made stokes_table names r names' r') t t' /\ same_rest v c /\ shows h' v names t /\ separate v c.
Proof.
  intros PC h v names t S R A P. destruct (stokes_made h v names t S R A P) as (h' & c & n' & t' & E & S' & N & M & SR & F & G).
  exists h', c, n', t'. pose proof (grows_shows _ _ _ _ _ G S). pose proof (fresh_separate _ _ _ _ _ F S). tauto.
Qed.
(** Linear polarizations out of Stokes parameters: XX = (I+Q)/2, YY = (I-Q)/2, XY = (U-iV)/2, YX = (U+iV)/2. *)
Lemma C62_to_linear_proof : forall (PC : Type) h (v : vds PC) names t, shows h v names t -> regular t ->
  (forall n, In n (product_names linear_table) -> ~ In n names) -> possible linear_table names ->
  exists h' c names' t', convert_to_linear h v = (h', Ok c) /\ shows h' c names' t' /\ made_names linear_table names names' /\
    Forall2 (fun r r' => made linear_table names r names' r') t t' /\ same_rest v c /\ shows h' v names t /\ separate v c.
Proof.
  intros PC h v names t S R A P. destruct (linear_made h v names t S R A P) as (h' & c & n' & t' & E & S' & N & M & SR & F & G).
  exists h', c, n', t'. pose proof (grows_shows _ _ _ _ _ G S). pose proof (fresh_separate _ _ _ _ _ F S). tauto.
Qed.
(** Circular polarizations out of Stokes parameters: RR = I+V, LL = I-V, RL = Q+iU, LR = Q-iU. *)
Lemma C62_to_circular_proof : forall (PC : Type) h (v : vds PC) names t, shows h v names t -> regular t ->
  (forall n, In n (product_names circular_table) -> ~ In n names) -> possible circular_table names ->
  exists h' c names' t', convert_to_circular h v = (h', Ok c) /\ shows h' c names' t' /\ made_names circular_table names names' /\
    Forall2 (fun r r' => made circular_table names r names' r') t t' /\ same_rest v c /\ shows h' v names t /\ separate v c.
Proof.
  intros PC h v names t S R A P. destruct (circular_made h v names t S R A P) as (h' & c & n' & t' & E & S' & N & M & SR & F & G).
  exists h', c, n', t'. pose proof (grows_shows _ _ _ _ _ G S). pose proof (fresh_separate _ _ _ _ _ F S). tauto.
Qed.
Lemma C62_to_stokes_example_proof : shows ex_h ex_v ex_names ex_table /\ regular ex_table /\
  (forall n, In n (product_names stokes_table) -> ~ In n ex_names) /\ possible stokes_table ex_names /\ ~ possible linear_table ex_names.
Proof.
  split; [exact ex_ok|]. split; [apply Forall_cons; [exists 1%nat; repeat constructor|apply Forall_cons; [exists 1%nat; repeat constructor|apply Forall_nil]]|].
  split; [simpl; intuition congruence|]. split.
  - exists "I"%string, "XX"%string, "YY"%string, cadd. simpl. tauto.
  - intros (n & a & b & f & I & J & K). simpl in I, J, K.
    repeat (destruct I as [I|I]; [inversion I; subst; simpl in J; intuition congruence|]). destruct I.
Qed.
(** A data set that already has one of the new polarizations, or no complete pair of the old, is a RuntimeError. *)
Lemma C62_refused_proof : forall (PC : Type) h (v : vds PC) names t, shows h v names t ->
  ((exists n, In n (product_names stokes_table) /\ In n names) \/ ~ possible stokes_table names -> convert_to_stokes h v = (h, Raise RuntimeError)) /\
  ((exists n, In n (product_names linear_table) /\ In n names) \/ ~ possible linear_table names -> convert_to_linear h v = (h, Raise RuntimeError)) /\
  ((exists n, In n (product_names circular_table) /\ In n names) \/ ~ possible circular_table names -> convert_to_circular h v = (h, Raise RuntimeError)).
Proof.
  intros PC h v names t (_ & _ & N & _). subst names.
  split; [|split]; (intros [(n & I & J)|NP]; [eapply convert_avoid; [|exact J]; simpl in I |- *; tauto|
    apply convert_impossible; [intros a b o I; simpl in I; repeat (destruct I as [I|I]; [inversion I; discriminate|]); destruct I|exact NP]]).
Qed.
(** From linear to Stokes and back: the visibilities are exactly what they were; the weights and masks of each of the
    two pairs are joined. *)
Lemma C62_linear_round_trip_proof : forall (PC : Type) h (v : vds PC) names t, shows h v names t -> regular t ->
  (forall n, In n (product_names stokes_table) -> ~ In n names) ->
  (forall n, In n (product_names linear_table) -> In n names) ->
  exists h1 s h2 l names2 t2, convert_to_stokes h v = (h1, Ok s) /\ convert_to_linear h1 s = (h2, Ok l) /\
    shows h2 l names2 t2 /\ (forall n, In n names2 <-> In n (product_names linear_table)) /\ same_rest v l /\
    shows h2 v names t /\ separate v l /\
    Forall2 (fun r r2 => r_bl r2 = r_bl r /\ r_uvw r2 = r_uvw r /\
      forall a b ca cb, In (a, b) [("XX", "YY"); ("XY", "YX")]%string -> cell_named names r a ca -> cell_named names r b cb ->
        cell_named names2 r2 a (cell_like (fst (fst ca)) (joined ca cb)) /\
        cell_named names2 r2 b (cell_like (fst (fst cb)) (joined ca cb))) t t2.
Proof. intros PC. exact linear_stokes_linear. Qed.
Definition ex_names4 : list string := ["XX"; "YX"; "YY"; "XY"]%string.
Definition ex_table4 : list row := [mkR (0, 1) [(1, 0, 0)%Q] [ex_cell 1 true; ex_cell 2 false; ex_cell 3 false; ex_cell 4 false]].
Lemma C62_linear_round_trip_example_proof : exists h (v : vds Z), shows h v ex_names4 ex_table4 /\ regular ex_table4 /\
  (forall n, In n (product_names stokes_table) -> ~ In n ex_names4) /\ (forall n, In n (product_names linear_table) -> In n ex_names4) /\
  cell_named ex_names4 (hd ex_row1 ex_table4) "YY" (ex_cell 3 false).
Proof.
  exists (mkH ([] ++ columns ex_names4 ex_table4) [map r_uvw ex_table4]), (with_pols (mkV 1 [1%Q] (map r_bl ex_table4) 0 None None [] []) (refs_from 0 ex_names4)).
  split; [apply (shows_new (mkH [] []) (mkV 1 [1%Q] (map r_bl ex_table4) 0 None None [] []) ex_names4 ex_table4 [map r_uvw ex_table4] 0%nat); auto|].
  - repeat constructor; simpl; intuition congruence.
  - intros n I. simpl in I. repeat (destruct I as [<-|I]; [reflexivity|]). destruct I.
  - repeat constructor.
  - split; [apply Forall_cons; [exists 1%nat; repeat constructor|apply Forall_nil]|]. split; [simpl; intuition congruence|]. split; [simpl; intuition congruence|].
    exists 2%nat. split; reflexivity.
Qed.
(** Circular polarizations hold all four Stokes parameters. *)
Lemma C62_circular_keeps_stokes_proof : forall x y, chalf (cadd (cadd x y) (csub x y)) = x /\ chalf (csub (cadd x y) (csub x y)) = y /\
  chalf (cadd (cadd x (cmul im y)) (csub x (cmul im y))) = x /\
  chalf (cmul (conj im) (csub (cadd x (cmul im y)) (csub x (cmul im y)))) = y.
Proof.
  intros x y. split; [apply stokes_xx|]. split; [apply stokes_yy|]. destruct x, y. split; ceq.
Qed.
(** REFUTED: the total intensity is not the same in both bases: XX+YY = I but RR+LL = 2 I. *)
Lemma C62_total_intensity_refuted_proof :
  (forall i q, let xx := chalf (cadd i q) in let yy := chalf (csub i q) in cadd xx yy = i) /\
  (forall i v, let rr := cadd i v in let ll := csub i v in cadd rr ll = cadd i i) /\
  exists i v : C, cadd (cadd i v) (csub i v) <> i.
Proof.
  assert (HALF : forall a b : Qc, ((a + b) / two + (a - b) / two = a)%Qc).
  { intros a b. replace ((a + b) / two + (a - b) / two)%Qc with ((a + a) / two)%Qc by (unfold Qcdiv; ring). apply two_half. }
  split; [intros [a b] [c d]; apply Ceq; unfold chalf, cadd, csub; cbn [fst snd]; apply HALF|]. split; [intros [a b] [c d]; ceq|].
  exists (1%Qc, 0%Qc), (0%Qc, 0%Qc). intro H. apply (f_equal fst) in H. apply (f_equal this) in H. vm_compute in H. discriminate.
Qed.

(** ** Gains *)
(** scale_data() gives a new data set in which every visibility of baseline (i, j) is multiplied by conj(g_j) g_i of its
    channel; weights, masks and all else are as before; the old data set is not touched. *)
Lemma C63_scale_proof : forall (PC : Type) h (v : vds PC) names t gains n, shows h v names t -> gains_for gains n t ->
  exists h' c, scale_data h v gains = (h', Ok c) /\ shows h' c names (map (scaled gains) t) /\ same_rest v c /\
    shows h' v names t /\ separate v c.
Proof.
  intros PC h v names t gains n S G. destruct (scale_data_ok h v names t gains n S G) as (h' & c & E & S' & R & F & GR).
  exists h', c. pose proof (grows_shows _ _ _ _ _ GR S). pose proof (fresh_separate _ _ _ _ _ F S). tauto.
Qed.
Definition ex_gains : list (list C) := [[ex_c 2]; [ex_c 3]; [(0%Qc, 1%Qc)]].
Lemma C63_scale_example_proof : shows ex_h ex_v ex_names ex_table /\ gains_for ex_gains 1 ex_table /\
  map (fun x : C => (this (fst x), this (snd x))) (gain ex_gains (0, 2)) = [(0%Q, (-2)%Q)].
Proof.
  split; [exact ex_ok|]. split; [|vm_compute; reflexivity].
  split; [repeat constructor|]. unfold ex_table. repeat (apply Forall_cons; [split; [repeat constructor|unfold zlen; simpl; lia]|]). apply Forall_nil.
Qed.
(** Scaling by one set of gains and then by another is scaling by their products; gains of one change nothing. *)
Lemma C63_scale_twice_proof : forall (PC : Type) h (v : vds PC) names t g1 g2 n, shows h v names t -> gains_for g1 n t -> gains_for g2 n t -> length g1 = length g2 ->
  exists h1 c1 h2 c2, scale_data h v g1 = (h1, Ok c1) /\ scale_data h1 c1 g2 = (h2, Ok c2) /\
    shows h2 c2 names (map (scaled (zipw (zipw cmul) g1 g2)) t) /\ same_rest v c2.
Proof.
  intros PC h v names t g1 g2 n S G1 G2 L. destruct (scale_data_ok h v names t g1 n S G1) as (h1 & c1 & E1 & S1 & R1 & _ & _).
  destruct (scale_data_ok h1 c1 names _ g2 n S1 (scaled_gains_for _ _ _ _ G1 G2)) as (h2 & c2 & E2 & S2 & R2 & _ & _).
  rewrite (scaled_twice _ _ _ _ G1 G2 L) in S2. exists h1, c1, h2, c2. do 3 (split; [auto|]). unfold same_rest in *; intuition congruence.
Qed.
Lemma C63_scale_unit_proof : forall (PC : Type) h (v : vds PC) names t k n, shows h v names t -> gains_for (repeat (repeat (1%Qc, 0%Qc) n) k) n t ->
  exists h' c, scale_data h v (repeat (repeat (1%Qc, 0%Qc) n) k) = (h', Ok c) /\ shows h' c names t.
Proof.
  intros PC h v names t k n S G. destruct (scale_data_ok h v names t _ n S G) as (h' & c & E & S' & _). exists h', c. split; auto.
  pose proof (scaled_ones k n t G) as X. exact (eq_ind _ (fun t => shows h' c names t) S' _ X).
Qed.
(** All integrations, where all of them list the same baselines. *)
Lemma C63_scale_integrations_partial_proof : forall (PC : Type) h (its : list (@item PC)) gains n bl, all_show h its -> different_dates (sets its) -> uniform its ->
  Forall (fun x => map r_bl (shown_rows x) = bl /\ gains_for gains n (shown_rows x)) its ->
  exists h' its', scale_vdata h (sets its) gains = (h', Ok (sets its')) /\ all_show h' its' /\ all_show h' its /\
    Forall2 (other_rows (fun _ t t' => t' = map (scaled gains) t)) its its'.
Proof. intros PC. exact scale_vdata_ok. Qed.
(** REFUTED: where they do not, the gains of the baselines of the first integration are applied to all of them. *)
Lemma C63_scale_integrations_refuted_proof : exists h (its : list (@item Z)) gains h' l', all_show h its /\ different_dates (sets its) /\ uniform its /\
  Forall (fun x => gains_for gains 1 (shown_rows x)) its /\ scale_vdata h (sets its) gains = (h', Ok l') /\
  match its, l' with
  | [_; (_, (_, r :: _))], [_; c2] => exists p d, nth_error (v_pols c2) 0 = Some p /\ nth_error (hp h') (snd p) = Some d /\
      map (fst (A := Q) (B := Q)) (map (fun x : C => (this (fst x), this (snd x))) (hd [] (p_data d))) <>
      map (fst (A := Q) (B := Q)) (map (fun x : C => (this (fst x), this (snd x))) (fst (fst (cell_at 0 (scaled gains r)))))
  | _, _ => False
  end.
Proof.
  destruct (scale_vdata ex_h2 (sets ex_its) [[ex_c 2]; [ex_c 3]; [ex_c 1]]) as [h' o] eqn:E.
  destruct o as [l'|e]; [|vm_compute in E; discriminate].
  exists ex_h2, ex_its, [[ex_c 2]; [ex_c 3]; [ex_c 1]], h', l'.
  split; [exact ex_all_show|]. split; [exact ex_dates|]. split; [exists 2%nat, 1%nat; repeat constructor|].
  split.
  { repeat (apply Forall_cons; [split; [repeat constructor|unfold shown_rows, ex_table; cbn [fst snd]; repeat (apply Forall_cons; [split; [repeat constructor|unfold zlen; simpl; lia]|]); apply Forall_nil]|]). apply Forall_nil. }
  split; [auto|]. vm_compute in E. inversion E. subst. clear E. eexists _, _. split; [reflexivity|]. split; [reflexivity|]. vm_compute. discriminate.
Qed.
