(** Property theorems (generated from P_GridT.v by tools/gen_theorems.py). *)
From Coq Require Import String List ZArith QArith Qround Qabs Qcanon Bool Lia Lqa Permutation.
From Verif Require Import LibList M_Num M_Robust P_Robust M_Py M_Base P_Base M_Corr S_Corr P_Corr P_CorrFX M_Math P_Math M_Grid S_Grid P_Grid P_GridC P_GridP P_GridI P_GridT.
Import ListNotations.
Open Scope Z_scope.

(** C90: when compute_planes succeeds, the planes are consecutive, non-empty runs that together make up all the visibilities, at most 1024 of them; in data sorted by
    w every member of a plane lies less than wRes above its first, on the scale of the signed square root of w.  This needs data that fill more than one
    plane, or a word in front of the array that is below the number of visibilities (see C90_lone_plane_refuted). *)
Theorem C90_planes : forall (ss : Qc -> Qc) (before : Z) (wRes : Qc) (w : list Qc) (p : list (Z * Z)), (0 < wRes)%Qc -> compute_planes ss before wRes w = Some p ->
  before < zlen w \/ (exists x, In x w /\ (ss (znth 0%Qc 0 w) + wRes <= ss x)%Qc) ->
  concat (map (piece w) p) = w /\ (forall ab, In ab p -> piece w ab <> []) /\ zlen p <= 1024 /\
  (ascending (map ss w) -> forall ab, In ab p -> within wRes (map ss (piece w ab))).
Proof. exact C90_planes_proof. Qed.
Print Assumptions C90_planes.

Example C90_planes_example : compute_planes (fun x => x) 7 1%Qc three_w = Some [(0, 2); (2, 3)].
Proof. exact C90_planes_example_proof. Qed.

(** C90: the arrays are large enough when the signed square roots of w stay less than 1024 wRes above the first. *)
Theorem C90_room : forall (ss : Qc -> Qc) (before : Z) (wRes : Qc) (w : list Qc), (0 < wRes)%Qc -> w <> [] ->
  (forall x, In x w -> (ss x < ss (znth 0%Qc 0 w) + num 1024 * wRes)%Qc) -> exists p, compute_planes ss before wRes w = Some p.
Proof. exact C90_room_proof. Qed.
Print Assumptions C90_room.

Example C90_room_example : exists p, compute_planes (fun x => x) 0 1%Qc three_w = Some p.
Proof. exact C90_room_example_proof. Qed.

(** C90, finding: visibilities that all fall in one plane are dropped, all of them, when the word in front of the array planeStop (entry -1, read by line 111) is not
    below their number: no plane is made. *)
Theorem C90_lone_plane_refuted : forall (ss : Qc -> Qc) (before : Z) (wRes : Qc) (w : list Qc), (0 < wRes)%Qc -> w <> [] ->
  (forall x, In x w -> (ss x < ss (znth 0%Qc 0 w) + wRes)%Qc) -> zlen w <= before -> compute_planes ss before wRes w = Some [].
Proof. exact C90_lone_plane_refuted_proof. Qed.
Print Assumptions C90_lone_plane_refuted.

Example C90_lone_plane_example : compute_planes (fun x => x) 33 1%Qc two_w = Some [] /\ compute_planes (fun x => x) 0 1%Qc two_w = Some [(0, 2)].
Proof. exact C90_lone_plane_example_proof. Qed.

(** C90, finding: a list with more than 1024 planes writes past the end of the arrays. *)
Theorem C90_overrun_refuted : forall (before n : Z), 1025 <= n -> compute_planes (fun x => x) before 1%Qc (map num (range 0 n)) = None.
Proof. exact C90_overrun_refuted_proof. Qed.
Print Assumptions C90_overrun_refuted.

(** C91: visibilities with |u| and |v| at most the size of the plane (N cells of uvRes, N at least 4) are gridded within the arrays, and every cell holds the sum of the
    data, each spread by the kernel over the 7 by 7 cells around (u, -v) / uvRes, taken modulo N.  The data and the weights alike. *)
Theorem C91_cells : forall (K : Z -> Qc) (N : Z) (uvRes : Qc) (value : sample -> C) (xs : list sample), 4 <= N -> uvRes <> 0%Qc ->
  (forall s, In s xs -> ((- num N <= s_u s / uvRes)%Qc /\ (s_u s / uvRes <= num N)%Qc) /\ ((- num N <= - (s_v s / uvRes))%Qc /\ (- (s_v s / uvRes) <= num N)%Qc)) ->
  exists g, sub_grid K N uvRes value xs = Some g /\
            forall a b, 0 <= a < N -> 0 <= b < N -> g (N * a + b) = plane_cell K N (map (fun s => ((s_u s / uvRes)%Qc, (- (s_v s / uvRes))%Qc, value s)) xs) a b.
Proof. exact C91_cells_proof. Qed.
Print Assumptions C91_cells.

(** C91: nothing is lost: the cells add up to the data, each times the sum of its kernel weights. *)
Theorem C91_total : forall (K : Z -> Qc) (N : Z) (data : list (Qc * Qc * complex)), 0 < N ->
  total_c (map (fun a => total_c (map (fun b => plane_cell K N data a b) (upto 0 N))) (upto 0 N)) = total_c (map (fun d => let '(x, y, z) := d in times_real (whole K y * whole K x)%Qc z) data).
Proof. exact C91_total_proof. Qed.
Print Assumptions C91_total.

(** C91: a visibility beyond the plane is neither refused nor left out but put on the cells a whole plane away. *)
Theorem C91_folded : forall (K : Z -> Qc) (N : Z) (x : Qc) (a : Z), share K N (x + num N)%Qc a = share K N x a.
Proof. exact C91_folded_proof. Qed.
Print Assumptions C91_folded.

Example C91_cells_example : (- num 8 <= s_u a_sample / 1)%Qc /\ (s_u a_sample / 1 <= num 8)%Qc /\ (- num 8 <= - (s_v a_sample / 1))%Qc /\ (- (s_v a_sample / 1) <= num 8)%Qc /\
  option_map (fun g => fst (g (8 * 2 + 1))) (sub_grid a_kernel 8 1%Qc s_vis [a_sample]) = Some (num 50625).
Proof. exact C91_cells_example_proof. Qed.

Theorem C91_outside_refuted : forall (K : Z -> Qc) (N : Z) (value : sample -> C) (s : sample) (xs : list sample), 4 <= N -> s_u s = 0%Qc -> s_v s = num (- (3 * N)) ->
  sub_grid K N 1%Qc value (s :: xs) = None.
Proof. exact C91_outside_refuted_proof. Qed.
Print Assumptions C91_outside_refuted.

(** C92: with planes of N by N cells (N at least 4), visibilities inside it and a plane size that no earlier call of the process differed from, the gridded data and
    beam planes are the sums over the w planes of the planes of C91 transformed, multiplied by the w term of the plane's mean w and transformed back, over N squared; for
    every order in which the threads take the w planes.  ([planar]: the transforms read and write the N by N cells.) *)
Theorem C92_projected : forall (K : Z -> Qc) (root : Qc -> Qc) (E : Qc -> C) (forward backward : Z -> mem C -> mem C) (ss : Qc -> Qc) (N : Z) (uvRes wRes : Qc) (first : option Z) (before : Z)
    (order : list Z) (xs : list sample) (p : list (Z * Z)),
  4 <= N -> uvRes <> 0%Qc -> planar N forward -> planar N backward -> first = None \/ first = Some N -> (forall s, In s xs -> fit N uvRes s) ->
  compute_planes ss before wRes (map s_w xs) = Some p -> Permutation order (upto 0 (zlen p)) ->
  exists uv bm, compute_gridding ss K root E forward backward first before N uvRes wRes order xs = Some (uv, bm) /\
  forall i, 0 <= i < N * N ->
    uv i = total_c (map (fun ab => let run := piece xs ab in
             projected K root E (forward N) (backward N) N uvRes (1 / (num N * num N))%Qc (map (fun s => ((s_u s / uvRes)%Qc, (- (s_v s / uvRes))%Qc, s_vis s)) run) (map s_w run) i) p) /\
    bm i = total_c (map (fun ab => let run := piece xs ab in
             projected K root E (forward N) (backward N) N uvRes (1 / (num N * num N))%Qc (map (fun s => ((s_u s / uvRes)%Qc, (- (s_v s / uvRes))%Qc, s_wgt s)) run) (map s_w run) i) p).
Proof. exact C92_projected_proof. Qed.
Print Assumptions C92_projected.

Theorem C92_flat : forall (K : Z -> Qc) (root : Qc -> Qc) (E : Qc -> C) (forward backward : Z -> mem C -> mem C) (ss : Qc -> Qc) (N : Z) (uvRes wRes : Qc) (first : option Z) (before : Z)
    (order : list Z) (xs : list sample) (p : list (Z * Z)),
  4 <= N -> (1 < 2 * (this uvRes * this uvRes))%Q -> planar N forward -> planar N backward -> homogeneous N backward ->
  (forall g i, 0 <= i < N * N -> backward N (forward N g) i = cscale (num N * num N)%Qc (g i)) -> E 0%Qc = (1%Qc, 0%Qc) ->
  first = None \/ first = Some N -> (forall s, In s xs -> fit N uvRes s) -> (forall s, In s xs -> s_w s = 0%Qc) -> (0 < wRes)%Qc ->
  before < zlen xs -> compute_planes ss before wRes (map s_w xs) = Some p -> Permutation order (upto 0 (zlen p)) ->
  exists uv bm, compute_gridding ss K root E forward backward first before N uvRes wRes order xs = Some (uv, bm) /\
  forall a b, 0 <= a < N -> 0 <= b < N ->
    uv (N * a + b) = plane_cell K N (map (fun s => ((s_u s / uvRes)%Qc, (- (s_v s / uvRes))%Qc, s_vis s)) xs) a b /\
    bm (N * a + b) = plane_cell K N (map (fun s => ((s_u s / uvRes)%Qc, (- (s_v s / uvRes))%Qc, s_wgt s)) xs) a b.
Proof. exact C92_flat_proof. Qed.
Print Assumptions C92_flat.

(** C92, finding: the factor 1/N^2 is kept from the first call of the process.  When that was made with n by n cells, the planes of a later call with N by N cells are
    (N/n)^2 times what they should be, and so differ wherever they are not zero. *)
Theorem C92_static_refuted : forall (K : Z -> Qc) (root : Qc -> Qc) (E : Qc -> C) (forward backward : Z -> mem C -> mem C) (ss : Qc -> Qc) (n N : Z) (uvRes wRes : Qc) (before : Z)
    (order : list Z) (xs : list sample) (p : list (Z * Z)),
  4 <= N -> 0 < n -> n <> N -> uvRes <> 0%Qc -> planar N forward -> planar N backward -> homogeneous N backward -> (forall s, In s xs -> fit N uvRes s) ->
  compute_planes ss before wRes (map s_w xs) = Some p -> Permutation order (upto 0 (zlen p)) ->
  exists uv bm uv' bm', compute_gridding ss K root E forward backward None before N uvRes wRes order xs = Some (uv, bm) /\
                        compute_gridding ss K root E forward backward (Some n) before N uvRes wRes order xs = Some (uv', bm') /\
  forall i, 0 <= i < N * N -> uv' i = times_real (num N * num N / (num n * num n))%Qc (uv i) /\ bm' i = times_real (num N * num N / (num n * num n))%Qc (bm i) /\ (uv i <> (0%Qc, 0%Qc) -> uv' i <> uv i).
Proof. exact C92_static_refuted_proof. Qed.
Print Assumptions C92_static_refuted.

Example C92_transform_example : planar 4 (dft4 (-1)) /\ homogeneous 4 (dft4 1).
Proof. exact C92_transform_example_proof. Qed.

Example C92_inverse_example : forall g i, 0 <= i < 4 * 4 -> dft4 1 4 (dft4 (-1) 4 g) i = cscale (num 4 * num 4)%Qc (g i).
Proof. exact C92_inverse_example_proof. Qed.

(** C93: the image of one data set is made from all its visibilities of the polarization asked for and carries the time of the data set; a polarization that is missing
    gives RuntimeError.  ([project]: append_hermitian, the sorting and the gridder.) *)
Theorem C93_single : forall (project : list sample -> res img) (empty : img) (pol : string) (im : option gimg) (pols : list (string * list (sample * bool))) (mjd : Qc),
  (forall xs, find (fun p => (fst p =? pol)%string) pols = Some (pol, xs) -> build_one project empty pol im (mkD pols mjd) = bind (project (map fst xs)) (fun g => Ok (mkG g (Some mjd)))) /\
  ((forall xs, ~ In (pol, xs) pols) -> build_one project empty pol im (mkD pols mjd) = Raise RuntimeError).
Proof. exact C93_single_proof. Qed.
Print Assumptions C93_single.

Example C93_single_example : find (fun p => (fst p =? "XX")%string) some_pols = Some ("XX"%string, [(a_sample, true)]).
Proof. exact C93_single_example_proof. Qed.

(** C93, finding: of a collection of data sets only the last is in the image: the planes of the object are assigned, not added to.  The others can be exchanged for
    anything that can be gridded at all. *)
Theorem C93_last_only_refuted : forall (project : list sample -> res img) (empty : img) (pol : string) (im : option gimg) (ds ds' : list dset) (d : dset),
  (forall e, In e (ds ++ ds') -> forall i, exists g, build_one project empty pol i e = Ok g) ->
  build_all project empty pol im (ds ++ [d]) = build_all project empty pol im (ds' ++ [d]).
Proof. exact C93_last_only_refuted_proof. Qed.
Print Assumptions C93_last_only_refuted.

(** C93, finding: masked visibilities are gridded like the others. *)
Theorem C93_mask_ignored_refuted : forall (project : list sample -> res img) (empty : img) (pol : string) (im : option gimg) (xs xs' : list (sample * bool)) (mjd : Qc), map fst xs = map fst xs' ->
  build_one project empty pol im (mkD [(pol, xs)] mjd) = build_one project empty pol im (mkD [(pol, xs')] mjd).
Proof. exact C93_mask_ignored_refuted_proof. Qed.
Print Assumptions C93_mask_ignored_refuted.

Example C93_last_only_example : forall e, In e ([a_dset 1] ++ [a_dset 2]) -> forall i, exists g, build_one a_project (mkImg [] [[]]) "XX" i e = Ok g.
Proof. exact C93_last_only_example_proof. Qed.

(** C94: natural weighting hands the stored plane, tapered if asked, to the transform and changes nothing; an unknown scheme is ValueError and changes nothing. *)
Theorem C94_natural : forall (which : Z) (robust : Qc) (taper : option (list Qc)) (im : img) (scheme : string),
  gen_img which "natural" robust taper im = (im, Ok (match taper with None => array_of which im | Some t => multiply (map Some t) (array_of which im) end)) /\
  (scheme <> "natural"%string -> scheme <> "uniform"%string -> scheme <> "briggs"%string -> gen_img which scheme robust taper im = (im, Raise ValueError)).
Proof. exact C94_natural_proof. Qed.
Print Assumptions C94_natural.

Example C94_natural_example : "xx"%string <> "natural"%string /\ "xx"%string <> "uniform"%string /\ "xx"%string <> "briggs"%string.
Proof. exact C94_natural_example_proof. Qed.

(** C94: on an object with finite planes of one size, image() with uniform weighting hands over each cell of the uv plane divided by its gridded weight, and zero where that is
    zero; with Briggs weighting each cell divided by 1 + w S, S = 25 10^(-2 robust) (sum w) / (sum w^2). *)
Theorem C94_uniform_partial : forall (uv bm : list complex) (more : list (list (option C))) (robust : Qc), length uv = length bm ->
  snd (image "uniform" robust None (object uv bm more)) = Ok (map Some (map uniform_cell (combine (map fst bm) uv))).
Proof. exact C94_uniform_partial_proof. Qed.
Print Assumptions C94_uniform_partial.

Theorem C94_briggs_partial : forall (uv bm : list complex) (more : list (list (option C))) (robust : Qc), length uv = length bm -> let w := map fst bm in let s := (num 25 * robust * total w / sum_sq w)%Qc in
  total w <> 0%Qc -> sum_sq w <> 0%Qc -> (forall x, In x w -> (1 + x * s)%Qc <> 0%Qc) ->
  snd (image "briggs" robust None (object uv bm more)) = Ok (map Some (map (briggs_cell s) (combine w uv))).
Proof. exact C94_briggs_partial_proof. Qed.
Print Assumptions C94_briggs_partial.

(** C94: the taper multiplies the weighted cells. *)
Theorem C94_taper : forall (which : Z) (scheme : string) (robust : Qc) (t : list Qc) (im : img) (a : list (option C)), snd (gen_img which scheme robust None im) = Ok a ->
  snd (gen_img which scheme robust (Some t) im) = Ok (map (fun p => option_map (times_real (fst p)) (snd p)) (combine t a)) /\
  fst (gen_img which scheme robust (Some t) im) = fst (gen_img which scheme robust None im).
Proof. exact C94_taper_proof. Qed.
Print Assumptions C94_taper.

Theorem C94_repeated_refuted : let r1 := image "uniform" 1%Qc None one_cell in let r2 := image "uniform" 1%Qc None (fst r1) in let r3 := image "natural" 1%Qc None (fst r2) in
  shown (snd r1) = [Some (4, 0)%Q] /\ shown (snd r2) = [Some (2, 0)%Q] /\ shown (snd r3) = [Some (2, 0)%Q] /\ shown (snd (image "natural" 1%Qc None one_cell)) = [Some (8, 0)%Q].
Proof. exact C94_repeated_refuted_proof. Qed.
Print Assumptions C94_repeated_refuted.

(** C94: bm_image() of a later term with uniform weighting hands over that beam plane, each cell divided by its gridded weight and zero where that is zero; the uv plane, the
    weights and the other beam planes stay as they are. *)
Theorem C94_beam_term_partial : forall (uv bm b : list complex) (before after : list (list (option C))) (robust : Qc), length b = length bm ->
  let r := bm_image (1 + zlen before) "uniform" robust None (object uv bm (before ++ map Some b :: after)) in
  let cells := map Some (map uniform_cell (combine (map fst bm) b)) in
  snd r = Ok cells /\ i_uv (fst r) = map Some uv /\ i_bm (fst r) = map Some bm :: before ++ cells :: after.
Proof. exact C94_beam_term_partial_proof. Qed.
Print Assumptions C94_beam_term_partial.

Example C94_beam_term_example : let r := bm_image 1 "uniform" 1%Qc None (object [(num 8, 0%Qc)] [(num 2, 0%Qc)] [map Some [(num 6, 0%Qc)]; map Some [(num 4, 0%Qc)]]) in
  shown (snd r) = [Some (3, 0)%Q] /\ map (fun p => shown (Ok p)) (i_bm (fst r)) = [[Some (2, 0)%Q]; [Some (3, 0)%Q]; [Some (4, 0)%Q]].
Proof. exact C94_beam_term_example_proof. Qed.

(** C94, finding: the same in general: after image() with uniform weighting the stored plane is the weighted one. *)
Theorem C94_overwritten_refuted : forall (uv bm : list complex) (more : list (list (option C))) (robust : Qc), length uv = length bm ->
  i_uv (fst (image "uniform" robust None (object uv bm more))) = map Some (map uniform_cell (combine (map fst bm) uv)).
Proof. exact C94_overwritten_refuted_proof. Qed.
Print Assumptions C94_overwritten_refuted.

(** C94, finding: bm_image() with uniform weighting is not finite in any cell without weight: the weights are looked up in the plane being divided, where the zero has become NaN. *)
Theorem C94_beam_refuted : forall (uv bm : list complex) (more : list (list (option C))) (robust : Qc) (i : Z), 0 <= i < zlen bm -> fst (znth (0%Qc, 0%Qc) i bm) = 0%Qc ->
  exists a, snd (bm_image 0 "uniform" robust None (object uv bm more)) = Ok a /\ znth None i a = None.
Proof. exact C94_beam_refuted_proof. Qed.
Print Assumptions C94_beam_refuted.

Example C94_beam_example : 0 <= 0 < zlen [(0%Qc, 0%Qc)] /\ fst (znth (0%Qc, 0%Qc) 0 [(0%Qc, 0%Qc)]) = 0%Qc.
Proof. exact C94_beam_example_proof. Qed.
