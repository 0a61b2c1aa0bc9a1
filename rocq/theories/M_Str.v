(** Python strings as lists of code points, and the string operations the modelled code uses.
    These are CPython's own functions, described here as far as the code uses them; code points are integers. *)
From Coq Require Import List ZArith Bool.
Import ListNotations.
Open Scope Z_scope.

Definition str := list Z.
Fixpoint str_eqb (a b : str) : bool :=
  match a, b with [], [] => true | x :: a', y :: b' => (x =? y) && str_eqb a' b' | _, _ => false end.

(** str.isspace for one character. *)
Definition is_space (c : Z) : bool :=
  ((9 <=? c) && (c <=? 13)) || ((28 <=? c) && (c <=? 32)) || (c =? 133) || (c =? 160) || (c =? 5760) ||
  ((8192 <=? c) && (c <=? 8202)) || (c =? 8232) || (c =? 8233) || (c =? 8239) || (c =? 8287) || (c =? 12288).
Fixpoint lstrip (s : str) : str := match s with [] => [] | c :: r => if is_space c then lstrip r else s end.
Definition rstrip (s : str) : str := rev (lstrip (rev s)).
Definition strip (s : str) : str := rstrip (lstrip s).

(** s.split(c, 1): None when [c] does not occur. *)
Fixpoint split1 (c : Z) (s : str) : option (str * str) :=
  match s with
  | [] => None
  | x :: r => if x =? c then Some ([], r) else match split1 c r with Some (a, b) => Some (x :: a, b) | None => None end
  end.
(** s.split(c). *)
Fixpoint split (c : Z) (s : str) : list str :=
  match s with
  | [] => [[]]
  | x :: r => if x =? c then [] :: split c r else match split c r with f :: fs => (x :: f) :: fs | [] => [[x]] end
  end.
(** s.rsplit(c, 1): None when [c] does not occur. *)
Definition rsplit1 (c : Z) (s : str) : option (str * str) :=
  match split1 c (rev s) with Some (a, b) => Some (rev b, rev a) | None => None end.
Fixpoint starts_with (p s : str) : bool :=
  match p, s with [], _ => true | x :: p', y :: s' => (x =? y) && starts_with p' s' | _, _ => false end.
(** p in s. *)
Fixpoint contains (p s : str) : bool :=
  starts_with p s || match s with [] => false | _ :: r => contains p r end.
(** s.replace(c, ''). *)
Definition drop_char (c : Z) (s : str) : str := filter (fun x => negb (x =? c)) s.
(** c.join(l) for a one-character separator. *)
Fixpoint join (c : Z) (l : list str) : str :=
  match l with [] => [] | [s] => s | s :: r => s ++ c :: join c r end.

(** '%i' of a non-negative number, and of any number. *)
Fixpoint digits (fuel : nat) (n : Z) (acc : str) : str :=
  match fuel with
  | O => acc
  | S k => if n <? 10 then (48 + n) :: acc else digits k (n / 10) ((48 + n mod 10) :: acc)
  end.
Definition dec_nat (n : Z) : str := digits (S (Z.to_nat (Z.log2 n))) n [].
Definition dec (n : Z) : str := if n <? 0 then 45 :: dec_nat (- n) else dec_nat n.

(** int(s, 10) without the surrounding spaces and sign: digits, single underscores between them.
    Simplification: digits of other scripts are not recognised. *)
Definition is_digit (c : Z) : bool := (48 <=? c) && (c <=? 57).
Fixpoint parse_digits (after : bool) (acc : Z) (s : str) : option Z :=
  match s with
  | [] => if after then Some acc else None
  | c :: r => if is_digit c then parse_digits true (10 * acc + (c - 48)) r
              else if (c =? 95) && after then parse_digits false acc r else None
  end.
(** int(s, 10). *)
Definition parse_int (s : str) : option Z :=
  match strip s with
  | c :: r => if c =? 45 then option_map Z.opp (parse_digits false 0 r)
              else if c =? 43 then parse_digits false 0 r
              else parse_digits false 0 (c :: r)
  | [] => None
  end.
