(** What a user expects of text file headers: what was put in is read back. *)
From Coq Require Import List ZArith Bool.
From Verif Require Import M_Str M_Header.
Import ListNotations.
Open Scope Z_scope.

Section Spec.
Context {J : Type} (dumps : J -> str) (loads : str -> option J).
(** A header as its user sees it: values under keys, sections, and lines that only decorate *)
Inductive item := Entry (key : str) (v : J) | Group (name : str) (body : list item) | Ruler | Gap.
(** The calls that write it *)
Fixpoint call_of (i : item) : call :=
  match i with
  | Entry k v => KeyValue k (dumps v)
  | Group n b => Section_ n (map call_of b)
  | Ruler => Rule
  | Gap => Blank
  end.
(** The dictionary it stands for *)
Fixpoint means (i : item) : list (str * node J) :=
  match i with
  | Entry k v => [(k, Val v)]
  | Group n b => [(n, Dict (flat_map means b))]
  | Ruler | Gap => []
  end.
Definition meaning (l : list item) : list (str * node J) := flat_map means l.

Definition no_blank_ends (s : str) : Prop := s <> [] /\ is_space (hd 0 s) = false /\ is_space (last s 0) = false.
Definition one_line (s : str) : Prop := forall c, In c s -> ~ (9 <= c <= 13).
(** A name that can be read back: not empty, no blanks at its ends, no colon, no comment character, no dots of a continued line at its start *)
Definition good_name (comment : Z) (s : str) : Prop :=
  no_blank_ends s /\ one_line s /\ ~ In 58 s /\ ~ In comment s /\ firstn 3 s <> [46; 46; 46].
(** A value that json brings back and whose text has no comment character in it *)
Definition good_value (comment : Z) (v : J) : Prop :=
  loads (dumps v) = Some v /\ no_blank_ends (dumps v) /\ one_line (dumps v) /\ ~ In comment (dumps v).

Definition names (l : list item) : list str := flat_map (fun i => match i with Entry k _ => [k] | Group n _ => [n] | _ => [] end) l.
(** Sections stand before the values of their level. *)
Inductive sections_first : list item -> Prop :=
| SF_nil : sections_first []
| SF_group n b l : sections_first l -> sections_first (Group n b :: l)
| SF_deco i l : i = Ruler \/ i = Gap -> sections_first l -> sections_first (i :: l)
| SF_entry k v l : (forall n b, ~ In (Group n b) l) -> sections_first l -> sections_first (Entry k v :: l).
(** A header that can be read back, each of its sections not empty *)
Inductive readable (comment : Z) : list item -> Prop :=
| Readable l : NoDup (names l) -> sections_first l ->
    (forall k v, In (Entry k v) l -> good_name comment k /\ good_value comment v) ->
    (forall n b, In (Group n b) l -> good_name comment n /\ names b <> [] /\ readable comment b) -> readable comment l.
Definition good_comment (c : Z) : Prop := is_space c = false /\ c <> 58.
End Spec.

(** ** What a box looks like *)
Inductive row := Bar | Empty | Words (depth : nat) (t : str).
(** The rows of the calls: a section has its title with a colon at the end *)
Fixpoint rows (n : nat) (k : call) : list row :=
  match k with
  | Rule => [Bar]
  | Blank => [Empty]
  | Line s => [Words n s]
  | KeyValue k t => [Words n (k ++ 58 :: 32 :: t)]
  | Section_ t b => Words n (if last t 0 =? 58 then t else t ++ [58]) :: flat_map (rows (S n)) b
  end.
Definition blanks (s : str) : Prop := forall x, In x s -> x = 32.
(** A line of [w] characters: all comment characters, or a row between two of them, indented by [base] for each level *)
Definition looks (c base w : Z) (r : row) (l : str) : Prop :=
  Z.of_nat (length l) = w /\
  match r with
  | Bar => forall x, In x l -> x = c
  | Empty => exists b, blanks b /\ l = c :: b ++ [c]
  | Words n t => exists a b, blanks a /\ blanks b /\ l = c :: a ++ t ++ b ++ [c] /\ Z.of_nat (length a) = base * Z.of_nat n /\ b <> []
  end.

