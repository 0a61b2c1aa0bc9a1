(** Model of the visibility containers of imaging/data.py. *)
From Coq Require Import Ascii String List ZArith QArith Qcanon Bool.
From Verif Require Export M_Py LibList M_Base.
Import ListNotations.
Open Scope Z_scope.

(** A visibility (exact complex number: complex64/complex128 rounding is not modelled). *)
Definition C : Type := Qc * Qc.
(** One baseline of the uvw array: (u, v, w) for every channel. *)
Definition uvw_row := list (Q * Q * Q).

(** str.upper, for ASCII names of polarizations *)
Definition upper_char (c : ascii) : ascii :=
  let n := nat_of_ascii c in if (97 <=? n)%nat && (n <=? 122)%nat then ascii_of_nat (n - 32) else c.
Fixpoint upper (s : string) : string :=
  match s with EmptyString => EmptyString | String c r => String (upper_char c) (upper r) end.

(** PolarizationDataSet (data.py 18-40): three arrays, one row for every baseline. *)
Record pds := mkP { p_pol : string; p_data : list (list C); p_wgt : list (list Qc); p_mask : list (list bool) }.

(** The objects reachable from data sets.  [hp]: polarization objects; [ha]:
    uvw arrays, which rephase changes in place.  The other arrays are never
    changed in place while shared, so they are plain values. *)
Record heap := mkH { hp : list pds; ha : list (list uvw_row) }.

Section Vis.
(** Phase centers (ephem bodies or 'z'). *)
Context {PC : Type}.

(** VisibilityDataSet (data.py 126-156).  [v_pols] joins the list pols and the
    attributes that hold the polarization objects (they are only changed
    together, in append); the AntennaArray is its list of stands (its clock is
    always reset from jd before use); extra attributes are opaque. *)
Record vds := mkV { v_jd : Q; v_freq : list Q; v_bl : list (Z * Z); v_uvw : nat;
  v_aa : option (list Z); v_pc : option PC; v_pols : list (string * nat); v_extra : list (string * Z) }.

(** __init__ of PolarizationDataSet (data.py 23-40): weights default to one,
    masks to False, with the shape of the data. *)
Definition new_pds (pol : string) (d : list (list C)) (w : option (list (list Qc))) (m : option (list (list bool))) : pds :=
  mkP (upper pol) d
    (match w with Some x => x | None => map (map (fun _ => 1%Qc)) d end)
    (match m with Some x => x | None => map (map (fun _ => false)) d end).

(** np.take(a, order, axis=0), [l[i] for i in order] *)
Definition take {A} (l : list A) (order : list Z) : res (list A) := collect (map (py_index l) order).

(** PolarizationDataSet.sort (data.py 103-112): the object after the call and
    the outcome; the attributes set before an exception stay set. *)
Definition pds_sort (p : pds) (order : list Z) : pds * res unit :=
  if negb (zlen order =? zlen (p_data p)) then (p, Raise ValueError) else
  match take (p_data p) order with
  | Raise e => (p, Raise e)
  | Ok d =>
    let p := mkP (p_pol p) d (p_wgt p) (p_mask p) in
    match take (p_wgt p) order with
    | Raise e => (p, Raise e)
    | Ok w =>
      let p := mkP (p_pol p) (p_data p) w (p_mask p) in
      match take (p_mask p) order with
      | Raise e => (p, Raise e)
      | Ok m => (mkP (p_pol p) (p_data p) (p_wgt p) m, Ok tt)
      end
    end
  end.

(** PolarizationDataSet.subset (data.py 114-123) *)
Definition pds_subset (p : pds) (selection : list Z) : res pds :=
  bind (take (p_data p) selection) (fun d =>
  bind (take (p_wgt p) selection) (fun w =>
  bind (take (p_mask p) selection) (fun m => Ok (new_pds (p_pol p) d (Some w) (Some m))))).

(** PolarizationDataSet.copy (data.py 50-59) *)
Definition pds_copy (p : pds) : pds := new_pds (p_pol p) (p_data p) (Some (p_wgt p)) (Some (p_mask p)).

(** nbaseline, nchan, npol (data.py 168-190) *)
Definition nbaseline (v : vds) : Z := zlen (v_bl v).
Definition nchan (v : vds) : Z := zlen (v_freq v).
Definition npol (v : vds) : Z := zlen (v_pols v).

Fixpoint upd {A} (l : list A) (k : nat) (x : A) : list A :=
  match l, k with
  | [], _ => []
  | _ :: l', O => x :: l'
  | y :: l', S k' => y :: upd l' k' x
  end.

Definition new_pol (h : heap) (p : pds) : heap * nat := (mkH (hp h ++ [p]) (ha h), length (hp h)).
Definition new_arr (h : heap) (a : list uvw_row) : heap * nat := (mkH (hp h) (ha h ++ [a]), length (ha h)).
Definition set_pol (h : heap) (r : nat) (p : pds) : heap := mkH (upd (hp h) r p) (ha h).
Definition set_arr (h : heap) (r : nat) (a : list uvw_row) : heap := mkH (hp h) (upd (ha h) r a).

Definition with_pols (v : vds) (l : list (string * nat)) : vds :=
  mkV (v_jd v) (v_freq v) (v_bl v) (v_uvw v) (v_aa v) (v_pc v) l (v_extra v).
Definition with_bl (v : vds) (l : list (Z * Z)) : vds :=
  mkV (v_jd v) (v_freq v) l (v_uvw v) (v_aa v) (v_pc v) (v_pols v) (v_extra v).
Definition with_uvw (v : vds) (r : nat) : vds :=
  mkV (v_jd v) (v_freq v) (v_bl v) r (v_aa v) (v_pc v) (v_pols v) (v_extra v).
Definition with_pc (v : vds) (c : PC) : vds :=
  mkV (v_jd v) (v_freq v) (v_bl v) (v_uvw v) (v_aa v) (Some c) (v_pols v) (v_extra v).

(** The name of a new polarization goes to the end of the list, an old one
    keeps its place and gets the new object (data.py 232-235). *)
Fixpoint set_name (l : list (string * nat)) (n : string) (r : nat) : list (string * nat) :=
  match l with
  | [] => [(n, r)]
  | (m, q) :: l' => if String.eqb m n then (m, r) :: l' else (m, q) :: set_name l' n r
  end.

(** VisibilityDataSet.append (data.py 221-235) *)
Definition append (h : heap) (v : vds) (r : nat) : res vds :=
  match nth_error (hp h) r with
  | None => Raise TypeError
  | Some p =>
    if negb (nbaseline v =? zlen (p_data p)) then Raise RuntimeError
    else Ok (with_pols v (set_name (v_pols v) (upper (p_pol p)) r))
  end.

(** Appends of new objects, made one after the other from the polarizations [l]. *)
Fixpoint append_each (h : heap) (v : vds) (l : list (res pds)) : heap * res vds :=
  match l with
  | [] => (h, Ok v)
  | Raise e :: _ => (h, Raise e)
  | Ok p :: l' =>
    let (h, r) := new_pol h p in
    match append h v r with Raise e => (h, Raise e) | Ok v => append_each h v l' end
  end.

(** The polarization objects in order (__iter__, data.py 161-166). *)
Definition pols_of (h : heap) (v : vds) : list (option pds) := map (fun nr => nth_error (hp h) (snd nr)) (v_pols v).

(** pol.copy(), pds.subset(selection) for every polarization object *)
Definition each (f : pds -> res pds) (l : list (option pds)) : list (res pds) :=
  map (fun o => match o with Some p => f p | None => Raise AttributeError end) l.

(** copy (data.py 198-219) without the polarizations *)
Definition copy_bare (h : heap) (v : vds) : heap * vds :=
  let a := match nth_error (ha h) (v_uvw v) with Some a => a | None => [] end in
  let (h, r) := new_arr h a in
  (h, mkV (v_jd v) (v_freq v) (v_bl v) r (v_aa v) (v_pc v) [] (v_extra v)).

(** copy (data.py 198-219) *)
Definition copy (h : heap) (v : vds) (include_pols : bool) : heap * res vds :=
  let (h', c) := copy_bare h v in
  if include_pols then append_each h' c (each (fun p => Ok (pds_copy p)) (pols_of h v)) else (h', Ok c).

(** The sort of pairs (key, position) (data.py 237-242); positions differ, so
    the order of the pairs is strict. *)
Definition key_leb (p q : Z * Z) : bool := (fst p <? fst q) || ((fst p =? fst q) && (snd p <=? snd q)).
Fixpoint insert_key (p : Z * Z) (l : list (Z * Z)) : list (Z * Z) :=
  match l with
  | [] => [p]
  | q :: l' => if key_leb p q then p :: q :: l' else q :: insert_key p l'
  end.
Fixpoint sort_keys (l : list (Z * Z)) : list (Z * Z) :=
  match l with [] => [] | p :: l' => insert_key p (sort_keys l') end.

(** __cmp_baseline, _baseline_order (data.py 237-242) *)
Definition cmp_baseline (b : Z * Z) : Z := 4096 * fst b + snd b.
Fixpoint enumerate_from {A} (k : Z) (l : list A) : list (A * Z) :=
  match l with [] => [] | x :: l' => (x, k) :: enumerate_from (k + 1) l' end.
Definition baseline_order (v : vds) : list Z := map snd (sort_keys (enumerate_from 0 (map cmp_baseline (v_bl v)))).

(** The loop over the polarizations of sort (data.py 256-257) *)
Fixpoint sort_pols (h : heap) (l : list (string * nat)) (order : list Z) : heap * res unit :=
  match l with
  | [] => (h, Ok tt)
  | (_, r) :: l' =>
    match nth_error (hp h) r with
    | None => (h, Raise AttributeError)
    | Some p =>
      let (p', o) := pds_sort p order in
      let h := set_pol h r p' in
      match o with Raise e => (h, Raise e) | Ok _ => sort_pols h l' order end
    end
  end.

(** VisibilityDataSet.sort (data.py 244-257).  Returns the heap and the data
    set after the call together with the outcome. *)
Definition vds_sort (h : heap) (v : vds) (order : option (list Z)) : heap * vds * res unit :=
  let order := match order with Some l => l | None => baseline_order v end in
  match take (v_bl v) order with
  | Raise e => (h, v, Raise e)
  | Ok b =>
    let v := with_bl v b in
    match take (match nth_error (ha h) (v_uvw v) with Some a => a | None => [] end) order with
    | Raise e => (h, v, Raise e)
    | Ok a =>
      let (h, r) := new_arr h a in
      let v := with_uvw v r in
      let (h, o) := sort_pols h (v_pols v) order in (h, v, o)
    end
  end.

(** The AIPY calls of rephase: gen_uvw(j, i, src), unphs2src(vis, src, j, i)
    and phs2src(vis, src, j, i) for an AntennaArray at a Julian date; None is
    PointingError. *)
Record aipy := mkA {
  gen_uvw : Q -> list Z -> PC -> Z * Z -> option uvw_row;
  unphs2src : Q -> list Z -> PC -> Z * Z -> list C -> option (list C);
  phs2src : Q -> list Z -> PC -> Z * Z -> list C -> option (list C) }.

(** The loop over the baselines of rephase for one polarization (data.py
    283-300); [k] is the number of the next baseline, [l] the ones left. *)
Fixpoint rephase_rows (A : aipy) (jd : Q) (aa : list Z) (old new : PC) (u r : nat) (l : list (Z * Z)) (k : nat) (h : heap) : heap * res unit :=
  match l with
  | [] => (h, Ok tt)
  | (i, j) :: l' =>
    match nth_error (hp h) r with
    | None => (h, Raise AttributeError)
    | Some p =>
      match nth_error (p_data p) k with
      | None => (h, Raise IndexError)
      | Some vis =>
        match gen_uvw A jd aa new (j, i) with
        | None => (h, Raise RuntimeError)
        | Some crd =>
          match unphs2src A jd aa old (j, i) vis with
          | None => (h, Raise RuntimeError)
          | Some vis =>
            match phs2src A jd aa new (j, i) vis with
            | None => (h, Raise RuntimeError)
            | Some vis =>
              match nth_error (ha h) u with
              | None => (h, Raise IndexError)
              | Some a =>
                if (length a <=? k)%nat then (h, Raise IndexError) else
                let h := set_arr h u (upd a k crd) in
                let h := set_pol h r (mkP (p_pol p) (upd (p_data p) k vis) (p_wgt p) (p_mask p)) in
                rephase_rows A jd aa old new u r l' (S k) h
              end
            end
          end
        end
      end
    end
  end.

(** The loop over the polarizations of rephase (data.py 279-300) *)
Fixpoint rephase_pols (A : aipy) (jd : Q) (aa : list Z) (old new : PC) (u : nat) (bl : list (Z * Z)) (l : list (string * nat)) (h : heap) : heap * res unit :=
  match l with
  | [] => (h, Ok tt)
  | (_, r) :: l' =>
    let (h, o) := rephase_rows A jd aa old new u r bl 0 h in
    match o with Raise e => (h, Raise e) | Ok _ => rephase_pols A jd aa old new u bl l' h end
  end.

(** rephase (data.py 259-303); computing the positions of the sources is part
    of the AIPY calls. *)
Definition rephase (A : aipy) (h : heap) (v : vds) (new : PC) : heap * vds * res unit :=
  match v_pc v, v_aa v with
  | Some old, Some aa =>
    let (h, o) := rephase_pols A (v_jd v) aa old new (v_uvw v) (v_bl v) (v_pols v) h in
    match o with Raise e => (h, v, Raise e) | Ok _ => (h, with_pc v new, Ok tt) end
  | _, _ => (h, v, Raise AttributeError)
  end.

(** A (u,v) limit: np.inf or a number. *)
Inductive limit := Inf | Lim (q : Q).
Definition limit_gtb (a b : limit) : bool :=
  match a, b with
  | Inf, Inf => false | Inf, Lim _ => true | Lim _, Inf => false
  | Lim x, Lim y => negb (Qle_bool x y)
  end.
(** sqrt(x) >= limit and sqrt(x) < limit, without the square root and its
    rounding: the root is at least a limit that is not positive, and else its
    square is compared. *)
Definition root_geb (x : Q) (l : limit) : bool :=
  match l with Inf => false | Lim m => Qle_bool m 0 || Qle_bool (m * m) x end.
Definition root_ltb (x : Q) (l : limit) : bool :=
  match l with Inf => true | Lim m => negb (Qle_bool m 0) && negb (Qle_bool (m * m) x) end.

(** center_uvw, squared (data.py 318-319) *)
Definition center_uv (v : vds) (r : uvw_row) : res Q :=
  bind (py_index r (nchan v / 2)) (fun '(x, y, _) => Ok (x * x + y * y)%Q).

(** np.where(mask)[0] *)
Definition where_ (l : list bool) : list Z := map snd (filter fst (enumerate_from 0 l)).

(** The end of get_uv_range and get_antenna_subset (data.py 322-332, 401-411) *)
Definition selected (h : heap) (v : vds) (selection : list Z) : heap * res vds :=
  match take (v_bl v) selection with
  | Raise e => (h, Raise e)
  | Ok b =>
    let (h', c) := copy_bare h v in
    let c := with_bl c b in
    match take (match nth_error (ha h) (v_uvw v) with Some a => a | None => [] end) selection with
    | Raise e => (h', Raise e)
    | Ok a =>
      let (h', r) := new_arr h' a in
      append_each h' (with_uvw c r) (each (fun p => pds_subset p selection) (pols_of h v))
    end
  end.

(** get_uv_range (data.py 305-332) *)
Definition get_uv_range (h : heap) (v : vds) (min_uv max_uv : limit) : heap * res vds :=
  let (lo, hi) := if limit_gtb min_uv max_uv then (max_uv, min_uv) else (min_uv, max_uv) in
  let a := match nth_error (ha h) (v_uvw v) with Some a => a | None => [] end in
  match collect (map (center_uv v) a) with
  | Raise e => (h, Raise e)
  | Ok d => selected h v (where_ (map (fun x => root_geb x lo && root_ltb x hi) d))
  end.

(** The include and exclude arguments: None, a string, an integer or a list. *)
Inductive arg := ANone | AStr (s : string) | AInt (n : Z) | AList (l : list Z).

Definition inb (x : Z) (l : list Z) : bool := existsb (Z.eqb x) l.
(** l.index(x) for a member of l *)
Fixpoint index_from (k x : Z) (l : list Z) : Z :=
  match l with [] => k | y :: l' => if x =? y then k else index_from (k + 1) x l' end.
(** del l[l.index(x)], ignoring ValueError *)
Fixpoint remove_first (x : Z) (l : list Z) : list Z :=
  match l with [] => [] | y :: l' => if x =? y then l' else y :: remove_first x l' end.

Definition read_include (a : arg) : res (option (list Z)) :=
  match a with
  | ANone => Ok None
  | AStr s => if String.eqb s "all" then Ok None else Raise TypeError
  | AInt _ => Raise TypeError
  | AList l => Ok (Some l)
  end.
Definition read_exclude (a : arg) : res (list Z) :=
  match a with
  | ANone => Ok []
  | AStr s => if String.eqb s "none" then Ok [] else Raise TypeError
  | AInt n => Ok [n]
  | AList l => Ok l
  end.

(** stands.index(i) for i in l if i in stands (data.py 372-375) *)
Definition to_indices (stands l : list Z) : list Z :=
  map (fun i => index_from 0 i stands) (filter (fun i => inb i stands) l).

(** Merging include and exclude (data.py 377-391) *)
Definition merge_keep (n : Z) (include : option (list Z)) (exclude : list Z) : list Z :=
  fold_left (fun keep e =>
    match include with
    | Some l => if inb e l then keep else remove_first e keep
    | None => remove_first e keep
    end) exclude (match include with Some l => l | None => range 0 n end).

(** get_antenna_subset (data.py 334-411) *)
Definition get_antenna_subset (h : heap) (v : vds) (include exclude : arg) (indicies : bool) : heap * res vds :=
  match read_include include with Raise e => (h, Raise e) | Ok inc =>
  match read_exclude exclude with Raise e => (h, Raise e) | Ok exc =>
  match v_aa v with
  | None => (h, Raise AttributeError)
  | Some stands =>
    let inc := if indicies then inc else option_map (to_indices stands) inc in
    let exc := if indicies then exc else to_indices stands exc in
    let keep := merge_keep (zlen stands) inc exc in
    selected h v (where_ (map (fun '(a1, a2) => inb a1 keep && inb a2 keep) (v_bl v)))
  end end end.

(** VisibilityData (data.py 414-624): a list of data sets.  The same data set
    object in two places of the list is not modelled. *)
Definition vdata := list vds.

Definition first_of {A} (f : vds -> A) (d : A) (l : vdata) : A := match l with v :: _ => f v | [] => d end.

(** VisibilityData.append (data.py 530-545) *)
Definition vd_append (l : vdata) (v : vds) : res vdata :=
  if existsb (fun w => Qeq_bool (v_jd v) (v_jd w)) l then Raise ValueError
  else if (0 <? first_of nbaseline 0 l) && negb (nbaseline v =? first_of nbaseline 0 l) then Raise ValueError
  else if (0 <? first_of nchan 0 l) && negb (nchan v =? first_of nchan 0 l) then Raise ValueError
  else if (0 <? first_of npol 0 l) && negb (npol v =? first_of npol 0 l) then Raise ValueError
  else Ok (l ++ [v]).

(** VisibilityData.extend (data.py 547-556) *)
Definition vd_extend (l l' : vdata) : vdata := l ++ l'.

(** copy, get_uv_range and get_antenna_subset of VisibilityData (data.py
    514-528, 590-600, 602-624): every data set in turn, into an empty VisibilityData. *)
Fixpoint vd_each (f : heap -> vds -> heap * res vds) (h : heap) (l acc : vdata) : heap * res vdata :=
  match l with
  | [] => (h, Ok acc)
  | v :: l' =>
    let (h, o) := f h v in
    match o with
    | Raise e => (h, Raise e)
    | Ok w => match vd_append acc w with Raise e => (h, Raise e) | Ok acc => vd_each f h l' acc end
    end
  end.
Definition vd_copy (h : heap) (l : vdata) (include_pols : bool) := vd_each (fun h v => copy h v include_pols) h l [].
Definition vd_get_uv_range (h : heap) (l : vdata) (lo hi : limit) := vd_each (fun h v => get_uv_range h v lo hi) h l [].
(** data.py 621-623: indicies=True whatever the caller asked for. *)
Definition vd_get_antenna_subset (h : heap) (l : vdata) (include exclude : arg) (indicies : bool) :=
  vd_each (fun h v => get_antenna_subset h v include exclude true) h l [].

(** VisibilityData.sort (data.py 565-573): a stable sort by date, then every
    data set by baseline. *)
Fixpoint insert_jd (v : vds) (l : vdata) : vdata :=
  match l with
  | [] => [v]
  | w :: l' => if Qle_bool (v_jd v) (v_jd w) then v :: w :: l' else w :: insert_jd v l'
  end.
Fixpoint sort_jd (l : vdata) : vdata := match l with [] => [] | v :: l' => insert_jd v (sort_jd l') end.
Fixpoint sort_each (h : heap) (l : vdata) : heap * vdata * res unit :=
  match l with
  | [] => (h, [], Ok tt)
  | v :: l' =>
    match vds_sort h v None with
    | (h, v, Raise e) => (h, v :: l', Raise e)
    | (h, v, Ok _) => let '(h, l', o) := sort_each h l' in (h, v :: l', o)
    end
  end.
Definition vd_sort (h : heap) (l : vdata) : heap * vdata * res unit := sort_each h (sort_jd l).

(** VisibilityData.rephase (data.py 575-588) *)
Fixpoint vd_rephase (A : aipy) (new : PC) (ignore_errors : bool) (h : heap) (l : vdata) : heap * vdata * res unit :=
  match l with
  | [] => (h, [], Ok tt)
  | v :: l' =>
    match rephase A h v new with
    | (h, v, Raise e) =>
      if ignore_errors then let '(h, l', o) := vd_rephase A new ignore_errors h l' in (h, v :: l', o)
      else (h, v :: l', Raise e)
    | (h, v, Ok _) => let '(h, l', o) := vd_rephase A new ignore_errors h l' in (h, v :: l', o)
    end
  end.
End Vis.
Arguments vds : clear implicits.
Arguments aipy : clear implicits.
Arguments vdata : clear implicits.
