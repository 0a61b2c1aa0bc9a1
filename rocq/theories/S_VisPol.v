(** What the changes of polarization basis and of gains should do to the table of a data set. *)
From Coq Require Import String List ZArith QArith Qcanon Bool.
From Verif Require Import M_Vis M_VisPol S_Vis.
Import ListNotations.
Open Scope Z_scope.

(** Entry by entry. *)
Definition zipw {A B D} (f : A -> B -> D) (a : list A) (b : list B) : list D :=
  map (fun p => f (fst p) (snd p)) (combine a b).
(** The cell of a polarization in a row. *)
Definition cell_named (names : list string) (r : row) (n : string) (c : cell) : Prop :=
  exists k, nth_error names k = Some n /\ nth_error (r_cells r) k = Some c.
(** All cells of a row have the same number of channels. *)
Definition regular (t : list row) : Prop :=
  Forall (fun r => exists n, Forall (fun c : cell =>
    length (fst (fst c)) = n /\ length (snd (fst c)) = n /\ length (snd c) = n) (r_cells r)) t.

(** The weights and masks of two cells joined: the mean of the weights, masked if one is. *)
Definition joined (c d : cell) : list Qc * list bool :=
  (zipw (fun x y => ((x + y) / (1 + 1))%Qc) (snd (fst c)) (snd (fst d)), zipw orb (snd c) (snd d)).
Definition cell_like (d : list C) (wm : list Qc * list bool) : cell := (d, fst wm, snd wm).

(** The gains of a baseline: conj(g_j) g_i for every channel. *)
Definition gain (gains : list (list C)) (b : Z * Z) : list C :=
  zipw (fun x y => cmul (conj x) y) (nth (Z.to_nat (snd b)) gains []) (nth (Z.to_nat (fst b)) gains []).
Definition scaled (gains : list (list C)) (r : row) : row :=
  mkR (r_bl r) (r_uvw r) (map (fun c : cell => (zipw cmul (fst (fst c)) (gain gains (r_bl r)), snd (fst c), snd c)) (r_cells r)).
(** Gains for all antennas of the table, for [n] channels. *)
Definition gains_for (gains : list (list C)) (n : nat) (t : list row) : Prop :=
  Forall (fun g => length g = n) gains /\
  Forall (fun r => Forall (fun c : cell => length (fst (fst c)) = n) (r_cells r) /\
    0 <= fst (r_bl r) < zlen gains /\ 0 <= snd (r_bl r) < zlen gains) t.

(** The imaginary unit *)
Definition imag : C := (0%Qc, 1%Qc).
(** What a new polarization is made of: its name, the two old ones, and how to combine their visibilities. *)
Definition product : Type := string * (string * string) * (C -> C -> C).
Definition stokes_table : list product :=
  [("I", ("XX", "YY"), cadd); ("Q", ("XX", "YY"), csub);
   ("U", ("XY", "YX"), cadd); ("V", ("XY", "YX"), fun x y => cmul imag (csub x y))]%string.
Definition linear_table : list product :=
  [("XX", ("I", "Q"), fun x y => chalf (cadd x y)); ("YY", ("I", "Q"), fun x y => chalf (csub x y));
   ("XY", ("U", "V"), fun x y => chalf (csub x (cmul imag y))); ("YX", ("U", "V"), fun x y => chalf (cadd x (cmul imag y)))]%string.
Definition circular_table : list product :=
  [("RR", ("I", "V"), cadd); ("LL", ("I", "V"), csub);
   ("RL", ("Q", "U"), fun x y => cadd x (cmul imag y)); ("LR", ("Q", "U"), fun x y => csub x (cmul imag y))]%string.
(** The row [r'] has exactly the products of the table that can be made out of [r]. *)
Definition made (tab : list product) (names : list string) (r : row) (names' : list string) (r' : row) : Prop :=
  r_bl r' = r_bl r /\ r_uvw r' = r_uvw r /\
  forall n c, cell_named names' r' n c <->
    exists a b f ca cb, In (n, (a, b), f) tab /\ cell_named names r a ca /\ cell_named names r b cb /\
      c = cell_like (zipw f (fst (fst ca)) (fst (fst cb))) (joined ca cb).
(** One of the pairs of the table is there. *)
Definition possible (tab : list product) (names : list string) : Prop :=
  exists n a b f, In (n, (a, b), f) tab /\ In a names /\ In b names.
Definition product_names (tab : list product) : list string := map (fun p => fst (fst p)) tab.
(** The polarizations that can be made. *)
Definition made_names (tab : list product) (names names' : list string) : Prop :=
  forall n, In n names' <-> exists a b f, In (n, (a, b), f) tab /\ In a names /\ In b names.
