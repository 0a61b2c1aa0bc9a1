(** What the registry should say. *)
From Coq Require Import List ZArith Bool Permutation.
From Verif Require Import M_Str M_Reg.
Import ListNotations.
Open Scope Z_scope.

(** The open objects after a history, most recent first, with their names: made, and not closed since. *)
Fixpoint open_after (l : list event) (o : list (Z * str)) : list (Z * str) :=
  match l with
  | [] => o
  | Create h n _ :: r => open_after r ((h, n) :: o)
  | Close h :: r => open_after r (filter (fun x => negb (fst x =? h)) o)
  | CloseAll _ :: r => open_after r []
  end.
(** A history as Python can make one: identities are new, only objects that exist are closed, and close_all goes
    through the objects that are open in some order. *)
Fixpoint possible (l : list event) (o : list (Z * str)) (made : list Z) : Prop :=
  match l with
  | [] => True
  | Create h n _ :: r => ~ In h made /\ possible r ((h, n) :: o) (h :: made)
  | Close h :: r => In h made /\ possible r (filter (fun x => negb (fst x =? h)) o) made
  | CloseAll k :: r => Permutation k (map fst o) /\ possible r [] made
  end.
(** No object is closed twice. *)
Fixpoint once (l : list event) (o : list (Z * str)) : Prop :=
  match l with
  | [] => True
  | Create h n _ :: r => once r ((h, n) :: o)
  | Close h :: r => In h (map fst o) /\ once r (filter (fun x => negb (fst x =? h)) o)
  | CloseAll _ :: r => once r []
  end.
(** The registry lists exactly the open objects, and under each name exactly the open ones of that name. *)
Definition lists_exactly (o : list (Z * str)) (r : registry) : Prop :=
  NoDup (handlers r) /\ (forall h, In h (handlers r) <-> In h (map fst o)) /\
  NoDup (filenames r) /\
  forall h n, In (h, n) o <-> exists s, In (n, s) (names r) /\ In h s.
Definition names_exactly (o : list (Z * str)) (r : registry) : Prop := forall n, In n (filenames r) <-> In n (map snd o).
