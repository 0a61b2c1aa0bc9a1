(** Model of lsl/writer/virtual.py: VirtualWriter.add_data_set (183-191) and get_data_set (209-246) with include_auto, so without a cut of
    the baselines, over VisibilityData.append and sort (lsl/imaging/data.py 539-555, 575-584).
    Simplifications: a data set is its time, its baselines by the number they are sorted by, and its number of channels; it has one
    polarization, as add_data_set makes it; objects are places in the writer's list; a result of one data set is a list of one. *)
From Coq Require Import List ZArith Bool QArith.
From Verif Require Import M_Py.
Import ListNotations.
Open Scope Z_scope.

Record dset := mkD { jd : Q; bls : list Z; chans : nat }.
(** VisibilityData.append (544-553): what has been appended, and what is to be. *)
Definition accept (l : list dset) (d : dset) : bool :=
  if existsb (fun e => Qeq_bool (jd d) (jd e)) l then false
  else match l with
       | [] => true
       | f :: _ =>
           if (negb (Nat.eqb (length (bls f)) 0)) && negb (Nat.eqb (length (bls d)) (length (bls f))) then false
           else if (negb (Nat.eqb (chans f) 0)) && negb (Nat.eqb (chans d) (chans f)) then false
           else true
       end.
(** add_data_set (189-191) *)
Definition add (w : list dset) (d : dset) : res (list dset) := if accept w d then Ok (w ++ [d]) else Raise ValueError.
(** The loop over the sets (228-229): [acc] is the places of the data sets appended so far. *)
Definition objs (w : list dset) (p : list nat) : list dset := flat_map (fun j => match nth_error w j with Some d => [d] | None => [] end) p.
Fixpoint pick (w : list dset) (acc : list nat) (sets : list Z) : res (list nat) :=
  match sets with
  | [] => Ok acc
  | s :: r =>
      let n := Z.of_nat (length w) in
      let j := if s - 1 <? 0 then s - 1 + n else s - 1 in
      if j <? 0 then Raise IndexError
      else match nth_error w (Z.to_nat j) with
           | None => Raise IndexError
           | Some d => if accept (objs w acc) d then pick w (acc ++ [Z.to_nat j]) r else Raise ValueError
           end
  end.
(** VisibilityData.sort (581-583): by time, then the baselines of each data set. *)
Fixpoint insert_z (x : Z) (l : list Z) : list Z := match l with [] => [x] | y :: r => if x <=? y then x :: l else y :: insert_z x r end.
Definition sort_z (l : list Z) : list Z := fold_right insert_z [] l.
Definition time (w : list dset) (j : nat) : Q := match nth_error w j with Some d => jd d | None => 0%Q end.
Fixpoint insert_t (w : list dset) (x : nat) (l : list nat) : list nat :=
  match l with [] => [x] | y :: r => if Qle_bool (time w x) (time w y) then x :: l else y :: insert_t w x r end.
Definition sort_t (w : list dset) (l : list nat) : list nat := fold_right (insert_t w) [] l.
Fixpoint tidy_from (k : nat) (p : list nat) (w : list dset) : list dset :=
  match w with [] => [] | d :: r => (if existsb (Nat.eqb k) p then mkD (jd d) (sort_z (bls d)) (chans d) else d) :: tidy_from (S k) p r end.
(** get_data_set: the data sets returned, and the writer afterwards. *)
Definition get_data_set (w : list dset) (sets : list Z) (sort : bool) : res (list nat) * list dset :=
  match pick w [] sets with
  | Raise e => (Raise e, w)
  | Ok p => if sort then (Ok (sort_t w p), tidy_from 0 p w) else (Ok p, w)
  end.
