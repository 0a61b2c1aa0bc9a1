(** Model of what changes the visibilities themselves: PolarizationDataSet.append and extend (imaging/data.py),
    the changes of polarization basis (imaging/utils.py) and scale_data (sim/vis.py). *)
From Coq Require Import String List ZArith QArith Qcanon Bool.
From Verif Require Export M_Vis.
Import ListNotations.
Open Scope Z_scope.

(** ** PolarizationDataSet.append (data.py 61-101) *)

(** A numpy array with one or two axes; the number of columns is kept for an
    array without rows. *)
Inductive nd (A : Type) := N1 (l : list A) | N2 (cols : nat) (rows : list (list A)).
Arguments N1 {A} _.
Arguments N2 {A} _ _.
Definition shape {A} (a : nd A) : list nat := match a with N1 l => [length l] | N2 c r => [length r; c] end.
Definition size {A} (a : nd A) : nat := match a with N1 l => length l | N2 c r => length r * c end.
(** len(a) *)
Definition nd_len {A} (a : nd A) : nat := match a with N1 l => length l | N2 _ r => length r end.
(** np.ones, np.zeros with the shape of [a] *)
Definition full {A B} (x : B) (a : nd A) : nd B :=
  match a with N1 l => N1 (map (fun _ => x) l) | N2 c r => N2 c (map (map (fun _ => x)) r) end.
Fixpoint shape_eqb (a b : list nat) : bool :=
  match a, b with [], [] => true | x :: a', y :: b' => (x =? y)%nat && shape_eqb a' b' | _, _ => false end.
(** np.vstack([a, b]): an array with one axis is one row. *)
Definition rows_of {A} (a : nd A) : nat * list (list A) := match a with N1 l => (length l, [l]) | N2 c r => (c, r) end.
Definition vstack {A} (a b : nd A) : res (nd A) :=
  let (ca, ra) := rows_of a in let (cb, rb) := rows_of b in
  if (ca =? cb)%nat then Ok (N2 ca (ra ++ rb)) else Raise ValueError.

Record pol3 := mk3 { q_data : nd C; q_wgt : nd Qc; q_mask : nd bool }.

(** PolarizationDataSet(pol, data, weight, mask) (data.py 23-40); None is no data. *)
Definition new3 (d : option (nd C)) (w : option (nd Qc)) (m : option (nd bool)) : pol3 :=
  let d := match d with Some d => d | None => N1 [] end in
  mk3 d (match w with Some w => w | None => full 1%Qc d end) (match m with Some m => m | None => full false d end).

(** append (data.py 61-88): the object after the call and the outcome. *)
Definition append3 (p : pol3) (d : nd C) (w : option (nd Qc)) (m : option (nd bool)) : pol3 * res unit :=
  let w := match w with Some w => w | None => full 1%Qc d end in
  let m := match m with Some m => m | None => full false d end in
  if (size (q_data p) =? 0)%nat then
    let p := mk3 d (q_wgt p) (q_mask p) in
    if negb (shape_eqb (shape (q_wgt p)) (shape d)) then (p, Raise ValueError) else
    let p := mk3 (q_data p) w (q_mask p) in
    if negb (shape_eqb (shape (q_mask p)) (shape d)) then (p, Raise ValueError) else
    (mk3 (q_data p) (q_wgt p) m, Ok tt)
  else
    match vstack (q_data p) d with
    | Raise e => (p, Raise e)
    | Ok x =>
      let p := mk3 x (q_wgt p) (q_mask p) in
      if negb (shape_eqb (shape (q_wgt p)) (shape d)) then (p, Raise ValueError) else
      match vstack (q_wgt p) w with
      | Raise e => (p, Raise e)
      | Ok x =>
        let p := mk3 (q_data p) x (q_mask p) in
        if negb (shape_eqb (shape (q_mask p)) (shape d)) then (p, Raise ValueError) else
        match vstack (q_mask p) m with
        | Raise e => (p, Raise e)
        | Ok x => (mk3 (q_data p) (q_wgt p) x, Ok tt)
        end
      end
    end.

(** extend (data.py 90-101); without weights and masks. *)
Fixpoint extend3 (p : pol3) (l : list (nd C)) : pol3 * res unit :=
  match l with
  | [] => (p, Ok tt)
  | d :: l' => match append3 p d None None with (p, Raise e) => (p, Raise e) | (p, Ok _) => extend3 p l' end
  end.

(** ** Complex numbers *)
Definition cadd (x y : C) : C := ((fst x + fst y)%Qc, (snd x + snd y)%Qc).
Definition csub (x y : C) : C := ((fst x - fst y)%Qc, (snd x - snd y)%Qc).
Definition cmul (x y : C) : C := ((fst x * fst y - snd x * snd y)%Qc, (fst x * snd y + snd x * fst y)%Qc).
Definition conj (x : C) : C := (fst x, (- snd x)%Qc).
Definition im : C := (0%Qc, 1%Qc).
Definition two : Qc := Q2Qc 2.
Definition chalf (x : C) : C := ((fst x / two)%Qc, (snd x / two)%Qc).

(** ** Changing the polarization basis (utils.py 1169-1369) *)

(** An arithmetic operation on two arrays of the same shape.  Broadcasting of
    single rows or columns is not modelled: other shapes raise ValueError. *)
Fixpoint zip2 {A B D} (f : A -> B -> D) (a : list A) (b : list B) : res (list D) :=
  match a, b with
  | [], [] => Ok []
  | x :: a', y :: b' => bind (zip2 f a' b') (fun l => Ok (f x y :: l))
  | _, _ => Raise ValueError
  end.
Definition arith {A B D} (f : A -> B -> D) (a : list (list A)) (b : list (list B)) : res (list (list D)) :=
  bind (zip2 (zip2 f) a b) collect.

(** One new polarization out of two: the data by [f], the weights averaged,
    the masks combined with "or" (for instance utils.py 1199-1205). *)
Definition combine_pols (name : string) (f : C -> C -> C) (p q : pds) : res pds :=
  bind (arith f (p_data p) (p_data q)) (fun d =>
  bind (arith (fun x y => ((x + y) / two)%Qc) (p_wgt p) (p_wgt q)) (fun w =>
  bind (arith orb (p_mask p) (p_mask q)) (fun m => Ok (new_pds name d (Some w) (Some m))))).

Fixpoint lookup (l : list (string * nat)) (n : string) : option nat :=
  match l with [] => None | (m, r) :: l' => if String.eqb m n then Some r else lookup l' n end.

Section Vis.
Context {PC : Type}.
Notation vds := (vds PC).

(** A pair of polarizations and the two products made out of it. *)
Definition job : Type := string * string * list (string * (C -> C -> C)).

Definition has (v : vds) (n : string) : bool := match lookup (v_pols v) n with Some _ => true | None => false end.

(** The try blocks: nothing when one polarization of the pair is missing. *)
Definition run_job (h : heap) (v : vds) (j : job) : list (res pds) :=
  let '(a, b, outs) := j in
  match lookup (v_pols v) a, lookup (v_pols v) b with
  | Some ra, Some rb =>
    match nth_error (hp h) ra, nth_error (hp h) rb with
    | Some p, Some q => map (fun '(n, f) => combine_pols n f p q) outs
    | _, _ => [Raise AttributeError]
    end
  | _, _ => []
  end.

(** The common body of the three functions. *)
Definition convert (h : heap) (v : vds) (avoid : list string) (jobs : list job) : heap * res vds :=
  if existsb (has v) avoid then (h, Raise RuntimeError) else
  if negb (existsb (fun '(a, b, _) => has v a && has v b) jobs) then (h, Raise RuntimeError) else
  match collect (flat_map (run_job h v) jobs) with
  | Raise e => (h, Raise e)
  | Ok l => let (h', c) := copy_bare h v in append_each h' c (map Ok l)
  end.

(** convert_to_stokes (utils.py 1169-1234) *)
Definition convert_to_stokes (h : heap) (v : vds) : heap * res vds :=
  convert h v ["I"; "Q"; "U"; "V"]%string
    [("XX"%string, "YY"%string, [("I"%string, cadd); ("Q"%string, csub)]);
     ("XY"%string, "YX"%string, [("U"%string, cadd); ("V"%string, fun x y => cmul im (csub x y))])].

(** convert_to_linear (utils.py 1237-1302) *)
Definition convert_to_linear (h : heap) (v : vds) : heap * res vds :=
  convert h v ["XX"; "YY"; "XY"; "YX"]%string
    [("I"%string, "Q"%string, [("XX"%string, fun x y => chalf (cadd x y)); ("YY"%string, fun x y => chalf (csub x y))]);
     ("U"%string, "V"%string, [("XY"%string, fun x y => chalf (csub x (cmul im y))); ("YX"%string, fun x y => chalf (cadd x (cmul im y)))])].

(** convert_to_circular (utils.py 1304-1369) *)
Definition convert_to_circular (h : heap) (v : vds) : heap * res vds :=
  convert h v ["RR"; "RL"; "LR"; "LL"]%string
    [("I"%string, "V"%string, [("RR"%string, cadd); ("LL"%string, csub)]);
     ("Q"%string, "U"%string, [("RL"%string, fun x y => cadd x (cmul im y)); ("LR"%string, fun x y => csub x (cmul im y))])].

(** ** scale_data (sim/vis.py 1175-1213) *)

(** data[b,:] *= cGains[j].conj()*cGains[i] for every baseline; [gains] is
    cGains, one factor for every channel. *)
Fixpoint scale_rows (gains : list (list C)) (bl : list (Z * Z)) (k : nat) (d : list (list C)) : res (list (list C)) :=
  match bl with
  | [] => Ok d
  | (i, j) :: bl' =>
    match nth_error d k with
    | None => Raise IndexError
    | Some x =>
      bind (py_index gains j) (fun gj => bind (py_index gains i) (fun gi =>
      bind (zip2 (fun a b => cmul (conj a) b) gj gi) (fun g =>
      bind (zip2 cmul x g) (fun y => scale_rows gains bl' (S k) (upd d k y)))))
    end
  end.

Fixpoint scale_pols (gains : list (list C)) (bl : list (Z * Z)) (l : list (string * nat)) (h : heap) : heap * res unit :=
  match l with
  | [] => (h, Ok tt)
  | (_, r) :: l' =>
    match nth_error (hp h) r with
    | None => (h, Raise AttributeError)
    | Some p =>
      match scale_rows gains bl 0 (p_data p) with
      | Raise e => (h, Raise e)
      | Ok d => scale_pols gains bl l' (set_pol h r (mkP (p_pol p) d (p_wgt p) (p_mask p)))
      end
    end
  end.

(** scale_data for one data set *)
Definition scale_data (h : heap) (v : vds) (gains : list (list C)) : heap * res vds :=
  let (h, o) := copy h v true in
  match o with
  | Raise e => (h, Raise e)
  | Ok c => let (h, o) := scale_pols gains (v_bl c) (v_pols c) h in match o with Raise e => (h, Raise e) | Ok _ => (h, Ok c) end
  end.

(** scale_data for a VisibilityData: the baselines are those of the first data
    set for all of them (sim/vis.py 1202-1207). *)
Fixpoint scale_sets (gains : list (list C)) (bl : list (Z * Z)) (l : vdata PC) (h : heap) : heap * res unit :=
  match l with
  | [] => (h, Ok tt)
  | v :: l' =>
    let (h, o) := scale_pols gains bl (v_pols v) h in
    match o with Raise e => (h, Raise e) | Ok _ => scale_sets gains bl l' h end
  end.
Definition scale_vdata (h : heap) (l : vdata PC) (gains : list (list C)) : heap * res (vdata PC) :=
  let (h, o) := vd_copy h l true in
  match o with
  | Raise e => (h, Raise e)
  | Ok c =>
    let (h, o) := scale_sets gains (first_of v_bl [] c) c h in
    match o with Raise e => (h, Raise e) | Ok _ => (h, Ok c) end
  end.
End Vis.
