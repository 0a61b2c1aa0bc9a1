(** Specification vocabulary for C145, C146. *)
From Coq Require Import List ZArith Bool.
Import ListNotations.
Open Scope Z_scope.

(** The low [k] bytes of a number, the lowest first. *)
Fixpoint stored (k : nat) (v : Z) : list Z := match k with O => [] | S k => v mod 256 :: stored k (v / 256) end.
(** A field with a value, filled up with zeros. *)
Definition field (k : nat) (v : Z) (fill : nat) : list Z := stored k v ++ repeat 0 fill.
(** The unsigned integer types of the documentation and their number of bytes. *)
Definition integer_types : list (list Z * nat) := [([105; 49; 117], 1%nat); ([105; 50; 117], 2%nat); ([105; 52; 117], 4%nat); ([105; 56; 117], 8%nat)].
Definition has_zero_byte (k : nat) (v : Z) : Prop := In 0 (stored k v).
(** A line of an initialization file: its fields other than index and name do not matter but for the type. *)
Definition line (index name : list Z) : list (list Z) := [[86]; index; name; [48]; [97]; [97]].
Definition branch (index name : list Z) : list (list Z) := [[66]; index; name; [48]; [97]; [97]].
Definition starts_with_digit (t : list Z) : Prop := exists c r, t = c :: r /\ 48 <= c <= 57.
(** ASCII texts, for the examples: other bytes are an error. *)
Definition ascii (l : list Z) : bool := forallb (fun b => (0 <? b) && (b <? 128)) l.
(** The float types: bytes, and whether the lowest byte is first. *)
Definition float_types : list (list Z * (nat * bool)) := [([102; 52], (4%nat, true)); ([102; 52; 114], (4%nat, false)); ([102; 56], (8%nat, true)); ([102; 56; 114], (8%nat, false))].
Definition float_field (k : nat) (lowest_first : bool) (bits : Z) (fill : nat) : list Z := (if lowest_first then stored k bits else rev (stored k bits)) ++ repeat 0 fill.
