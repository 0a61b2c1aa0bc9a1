(** What a user sees of a visibility data set: a table with one row for every
    baseline, and in every row one cell for every polarization. *)
From Coq Require Import String List ZArith QArith Qcanon Sorted Permutation Bool.
From Verif Require Import M_Vis.
Import ListNotations.
Open Scope Z_scope.

(** The visibilities of one baseline in one polarization, their weights and their mask. *)
Definition cell : Type := list C * list Qc * list bool.
Record row := mkR { r_bl : Z * Z; r_uvw : uvw_row; r_cells : list cell }.
Definition no_cell : cell := ([], [], []).
Definition cell_at (k : nat) (r : row) : cell := nth k (r_cells r) no_cell.

Section S.
Context {PC : Type}.
Implicit Types v w : vds PC.

(** The data set [v] shows the table [t] with the polarizations [names]. *)
Definition shows (h : heap) v (names : list string) (t : list row) : Prop :=
  v_bl v = map r_bl t /\
  nth_error (ha h) (v_uvw v) = Some (map r_uvw t) /\
  map fst (v_pols v) = names /\ NoDup names /\
  Forall (fun r => length (r_cells r) = length names) t /\
  forall k name r, nth_error (v_pols v) k = Some (name, r) ->
    upper name = name /\
    nth_error (hp h) r = Some (mkP name
      (map (fun x => fst (fst (cell_at k x))) t)
      (map (fun x => snd (fst (cell_at k x))) t)
      (map (fun x => snd (cell_at k x)) t)).

(** Everything else a data set carries. *)
Definition same_rest v w : Prop :=
  v_jd v = v_jd w /\ v_freq v = v_freq w /\ v_aa v = v_aa w /\ v_pc v = v_pc w /\ v_extra v = v_extra w.

(** Two data sets without a common object. *)
Definition separate v w : Prop :=
  v_uvw v <> v_uvw w /\ forall n r m, In (n, r) (v_pols v) -> ~ In (m, r) (v_pols w).

(** [order] picks the rows of [t'] out of [t]; negative positions count from the end. *)
Definition position (n i : Z) : Z := if i <? 0 then i + n else i.
Definition picks (t : list row) (order : list Z) (t' : list row) : Prop :=
  map Some t' = map (fun i => nth_error t (Z.to_nat (position (Z.of_nat (length t)) i))) order.
Definition valid_order (n : Z) (order : list Z) : Prop := Forall (fun i => - n <= i < n) order.

(** Baselines in dictionary order; rows of the same baseline keep their order. *)
Definition bl_le (p q : Z * Z) : Prop := fst p < fst q \/ (fst p = fst q /\ snd p <= snd q).
Definition sorted_rows (t t' : list row) : Prop :=
  Permutation t t' /\
  StronglySorted (fun x y => bl_le (r_bl x) (r_bl y)) t' /\
  forall b, filter (fun x => (fst (r_bl x) =? fst b) && (snd (r_bl x) =? snd b)) t' =
            filter (fun x => (fst (r_bl x) =? fst b) && (snd (r_bl x) =? snd b)) t.
Definition antennas_below (n : Z) (t : list row) : Prop :=
  Forall (fun r => 0 <= fst (r_bl r) < n /\ 0 <= snd (r_bl r) < n) t.

(** The uv distance of a row at channel [c] is within [lo, hi): [u^2 + v^2 = d^2]
    would need a root, so the limits are squared. *)
Definition at_least (l : limit) (s : Q) : Prop := match l with Inf => False | Lim m => (m <= 0 \/ m * m <= s)%Q end.
Definition uv_within (c : nat) (lo hi : limit) (r : row) : Prop :=
  exists x y z, nth_error (r_uvw r) c = Some (x, y, z) /\ at_least lo (x * x + y * y)%Q /\ ~ at_least hi (x * x + y * y)%Q.

(** Which antennas a selection keeps: the ones of include, or else the ones
    not in exclude. *)
Definition kept (n : Z) (include : option (list Z)) (exclude : list Z) (a : Z) : Prop :=
  match include with Some l => In a l | None => 0 <= a < n /\ ~ In a exclude end.
(** The same for stand numbers: antenna [a] is the first one at its stand. *)
Definition stand_of (stands : list Z) (a : Z) (s : Z) : Prop :=
  0 <= a /\ nth_error stands (Z.to_nat a) = Some s /\ forall b, 0 <= b < a -> nth_error stands (Z.to_nat b) <> Some s.
Definition at_stands (stands l : list Z) (idx : list Z) : Prop :=
  forall a, In a idx <-> exists s, In s l /\ stand_of stands a s.

(** The rows of [t'] are the rows of [t] that satisfy [P], in their order. *)
Inductive rows_with (P : row -> Prop) : list row -> list row -> Prop :=
| rw_nil : rows_with P [] []
| rw_keep : forall r t t', P r -> rows_with P t t' -> rows_with P (r :: t) (r :: t')
| rw_drop : forall r t t', ~ P r -> rows_with P t t' -> rows_with P (r :: t) t'.

(** A polarization with the given cells, and the rows of a table with one more
    cell, or with cell number [k] replaced. *)
Definition pol_of (name : string) (cells : list cell) : pds :=
  mkP name (map (fun c => fst (fst c)) cells) (map (fun c => snd (fst c)) cells) (map snd cells).
Definition add_cell (rc : row * cell) : row := mkR (r_bl (fst rc)) (r_uvw (fst rc)) (r_cells (fst rc) ++ [snd rc]).
Definition put_cell (k : nat) (rc : row * cell) : row :=
  mkR (r_bl (fst rc)) (r_uvw (fst rc)) (firstn k (r_cells (fst rc)) ++ snd rc :: skipn (S k) (r_cells (fst rc))).

(** What AIPY is taken to do: at one time, a source is above the horizon for
    all baselines or for none; phasing to a source and back are inverse. *)
Record sound_aipy (A : aipy PC) (up : Q -> list Z -> PC -> bool) : Prop := {
  sa_gen : forall jd aa c b, gen_uvw A jd aa c b = None <-> up jd aa c = false;
  sa_phs : forall jd aa c b x, phs2src A jd aa c b x = None <-> up jd aa c = false;
  sa_unphs : forall jd aa c b x, unphs2src A jd aa c b x = None <-> up jd aa c = false;
  sa_back : forall jd aa c b x y, phs2src A jd aa c b x = Some y <-> unphs2src A jd aa c b y = Some x }.

(** [r'] is the row [r] moved from one phase center to another. *)
Definition moved (A : aipy PC) (jd : Q) (aa : list Z) (old new : PC) (r r' : row) : Prop :=
  let b := (snd (r_bl r), fst (r_bl r)) in
  r_bl r' = r_bl r /\ gen_uvw A jd aa new b = Some (r_uvw r') /\
  Forall2 (fun c c' => snd c' = snd c /\ snd (fst c') = snd (fst c) /\
    exists x, unphs2src A jd aa old b (fst (fst c)) = Some x /\ phs2src A jd aa new b x = Some (fst (fst c')))
    (r_cells r) (r_cells r').

(** What a user can do to a data set object after it was made. *)
Inductive op := OpSort (order : option (list Z)) | OpRephase (c : PC) | OpAppend (p : pds).
Definition do_op (A : aipy PC) (s : heap * vds PC) (o : op) : heap * vds PC :=
  let (h, v) := s in
  match o with
  | OpSort order => fst (vds_sort h v order)
  | OpRephase c => fst (rephase A h v c)
  | OpAppend p => let (h, r) := new_pol h p in match append h v r with Ok v => (h, v) | Raise _ => (h, v) end
  end.
Definition do_ops (A : aipy PC) (s : heap * vds PC) (l : list op) : heap * vds PC := fold_left (do_op A) l s.

(** ** Several integrations: the data sets with what they show. *)
Definition item : Type := vds PC * (list string * list row).
Definition sets (its : list item) : vdata PC := map fst its.
Definition shown_names (x : item) : list string := fst (snd x).
Definition shown_rows (x : item) : list row := snd (snd x).
Definition all_show (h : heap) (its : list item) : Prop := Forall (fun x => shows h (fst x) (shown_names x) (shown_rows x)) its.
(** No two of them share an object, or a date. *)
Definition apart (l : vdata PC) : Prop := ForallOrdPairs separate l.
Definition different_dates (l : vdata PC) : Prop := ForallOrdPairs (fun v w => ~ (v_jd v == v_jd w)%Q) l.
(** As many polarizations and channels in all of them. *)
Definition uniform (its : list item) : Prop :=
  exists np nc, Forall (fun x => length (shown_names x) = np /\ length (v_freq (fst x)) = nc) its.
(** [y] is [x] with other rows. *)
Definition other_rows (R : vds PC -> list row -> list row -> Prop) (x y : item) : Prop :=
  same_rest (fst x) (fst y) /\ shown_names y = shown_names x /\ R (fst x) (shown_rows x) (shown_rows y).
(** A VisibilityData made by appending, one after the other; what is rejected is left out. *)
Definition appended (l : list (vds PC)) : vdata PC :=
  fold_left (fun acc v => match vd_append acc v with Ok acc => acc | Raise _ => acc end) l [].
End S.
Arguments op : clear implicits.
