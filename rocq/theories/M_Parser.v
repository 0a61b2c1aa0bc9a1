(** Model of the list conversions of lsl/misc/parser.py. *)
From Coq Require Import List ZArith Bool.
From Verif Require Export M_Py M_Str.
Import ListNotations.
Open Scope Z_scope.

(** What a conversion gives: a value, an ArgumentTypeError, or another exception (which argparse does not turn into a
    message unless it is a TypeError or ValueError). *)
Inductive parsed (A : Type) := Value (a : A) | Rejected | Crash (e : exn).
Arguments Value {A} _. Arguments Rejected {A}. Arguments Crash {A} _.
(** csv_int_list and csv_baseline_list give a list, or 'all', or 'none'. *)
Inductive listing (A : Type) := All | NoneOf | Items (l : list A).
Arguments All {A}. Arguments NoneOf {A}. Arguments Items {A} _.

Definition s_all : str := [97; 108; 108].
Definition s_star : str := [42].
Definition s_none : str := [110; 111; 110; 101].
(** range(a, b+1). *)
Definition py_range (a b : Z) : list Z := map (fun k => a + Z.of_nat k) (seq 0 (Z.to_nat (b + 1 - a))).

(** positive_or_zero_int (29-42), positive_int (45-54). *)
Definition positive_or_zero_int (s : str) : parsed Z :=
  match parse_int s with Some n => if n <? 0 then Rejected else Value n | None => Rejected end.
Definition positive_int (s : str) : parsed Z :=
  match positive_or_zero_int s with Value n => if n <=? 0 then Rejected else Value n | r => r end.

(** _int_item_or_range (451-458); None: ValueError. *)
Definition int_item_or_range (s : str) : option (list Z) :=
  match split1 126 s with
  | Some (a, b) => match parse_int a, parse_int b with Some x, Some y => Some (py_range x y) | _, _ => None end
  | None => match parse_int s with Some x => Some [x] | None => None end
  end.
(** The loop over string.split(',') (474-483, 500-517): blank items are skipped. *)
Fixpoint each_item {A} (f : str -> option (list A)) (l : list str) : option (list A) :=
  match l with
  | [] => Some []
  | s :: r => let item := strip s in
              match item with
              | [] => each_item f r
              | _ => match f item with
                     | Some v => match each_item f r with Some vs => Some (v ++ vs) | None => None end
                     | None => None
                     end
              end
  end.
Definition csv_of {A} (f : str -> option (list A)) (s : str) : parsed (listing A) :=
  if str_eqb s s_all || str_eqb s s_star then Value All
  else if str_eqb s s_none || str_eqb s [] then Value NoneOf
  else match each_item f (split 44 s) with Some l => Value (Items l) | None => Rejected end.
(** csv_int_list (461-484). *)
Definition csv_int_list (s : str) : parsed (listing Z) := csv_of int_item_or_range s.
(** csv_baseline_list (487-518). *)
Definition baseline_item (s : str) : option (list (Z * Z)) :=
  match split1 45 s with
  | Some (a, b) => match int_item_or_range a, int_item_or_range b with
                   | Some l, Some m => Some (flat_map (fun i => map (fun j => (i, j)) m) l)
                   | _, _ => None
                   end
  | None => None
  end.
Definition csv_baseline_list (s : str) : parsed (listing (Z * Z)) := csv_of baseline_item s.

(** csv_hours_list, csv_degrees_list (406-419, 435-448) over the conversion of one item. *)
Fixpoint all_of {A} (f : str -> option A) (l : list str) : option (list A) :=
  match l with
  | [] => Some []
  | s :: r => match f s, all_of f r with Some v, Some vs => Some (v :: vs) | _, _ => None end
  end.
Definition csv_angle_list {A} (f : str -> option A) (s : str) : parsed (list A) :=
  let s1 := rstrip s in
  match rev s1 with
  | [] => Crash IndexError                    (* string[-1] *)
  | c :: r => match all_of f (split 44 (if c =? 44 then rev r else s1)) with Some l => Value l | None => Rejected end
  end.

(** csv_hostname_list (521-587).  Simplification: \d is an ASCII digit. *)
Definition byte_text (s : str) : bool := forallb is_digit s && (1 <=? Z.of_nat (length s)) && (Z.of_nat (length s) <=? 3).
Definition num (s : str) : Z := match parse_digits false 0 s with Some n => n | None => 0 end.
(** \d{1,3}(~\d{1,3})? and the values it stands for. *)
Definition byte_range (s : str) : option (list Z) :=
  match split1 126 s with
  | Some (a, b) => if byte_text a && byte_text b then Some (py_range (num a) (num b)) else None
  | None => if byte_text s then Some (py_range (num s) (num s)) else None
  end.
Definition show_ip (a b c d : Z) : str := dec a ++ 46 :: dec b ++ 46 :: dec c ++ 46 :: dec d.
Definition ipv4_item (s : str) : option (list str) :=
  match split 46 s with
  | [f1; f2; f3; f4] =>
      match byte_range f1, byte_range f2, byte_range f3, byte_range f4 with
      | Some l1, Some l2, Some l3, Some l4 =>
          Some (flat_map (fun a => flat_map (fun b => flat_map (fun c => map (fun d => show_ip a b c d) l4) l3) l2) l1)
      | _, _, _, _ => None
      end
  | _ => None
  end.
Definition is_alpha (c : Z) : bool := ((65 <=? c) && (c <=? 90)) || ((97 <=? c) && (c <=? 122)).
(** ^[a-zA-Z-]*?[0-9]+~[0-9]+$ : the base is the longest prefix without digits. *)
Fixpoint span_base (s : str) : str * str :=
  match s with
  | [] => ([], [])
  | c :: r => if is_alpha c || (c =? 45) then let (a, b) := span_base r in (c :: a, b) else ([], s)
  end.
Definition host_range_item (s : str) : option (list str) :=
  let (base, r) := span_base s in
  match split1 126 r with
  | Some (a, b) => match a, b with
                   | _ :: _, _ :: _ => if forallb is_digit a && forallb is_digit b then Some (map (fun i => base ++ dec i) (py_range (num a) (num b))) else None
                   | _, _ => None
                   end
  | None => None
  end.
Definition host_item (s : str) : option (list str) :=
  if forallb (fun c => is_alpha c || is_digit c || (c =? 45)) s then Some [s] else None.
Definition hostname_item (s : str) : option (list str) :=
  match ipv4_item s with
  | Some l => Some l
  | None => match host_range_item s with Some l => Some l | None => host_item s end
  end.
Definition csv_hostname_list (s : str) : parsed (list str) :=
  match each_item hostname_item (split 44 s) with Some l => Value l | None => Rejected end.
