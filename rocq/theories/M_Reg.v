(** Model of the registry of open files, lsl/reader/ldp.py 47-135, 244-250, 2287-2288. *)
From Coq Require Import List ZArith Bool.
From Verif Require Export M_Py M_Str M_Config.
Import ListNotations.
Open Scope Z_scope.

(** Sets of objects: an object is known by its identity (LDPFileBase defines neither __eq__ nor __hash__). *)
Definition mem (h : Z) (s : list Z) : bool := existsb (Z.eqb h) s.
Definition sadd (h : Z) (s : list Z) : list Z := if mem h s then s else h :: s.
Definition sdel (h : Z) (s : list Z) : list Z := filter (fun x => negb (x =? h)) s.

(** _name_mapping and _handlers (57-59). *)
Record registry := mkReg { names : list (str * list Z); handlers : list Z }.
(** filenames, __len__ and __contains__ (61-73). *)
Definition filenames (r : registry) : list str := map fst (names r).
Definition size (r : registry) : Z := Z.of_nat (length (handlers r)).
Definition contains (n : str) (r : registry) : bool := existsb (str_eqb n) (filenames r).
(** A look-up in the defaultdict: a missing name appears with an empty set. *)
Definition look (n : str) (d : list (str * list Z)) : list Z * list (str * list Z) :=
  match dget n d with Some s => (s, d) | None => ([], dput n [] d) end.
(** add (75-77). *)
Definition add (h : Z) (n : str) (r : registry) : registry :=
  let '(s, d) := look n (names r) in mkReg (dput n (sadd h s) d) (sadd h (handlers r)).
(** remove (79-84). *)
Definition remove (h : Z) (n : str) (r : registry) : option exn * registry :=
  let '(s, d) := look n (names r) in
  if negb (mem h s) then (Some KeyError, mkReg d (handlers r))
  else
    let s' := sdel h s in
    let d' := match s' with [] => ddel n d | _ => dput n s' d end in
    if negb (mem h (handlers r)) then (Some KeyError, mkReg d' (handlers r))
    else (None, mkReg d' (sdel h (handlers r))).

(** The process: the registry, the objects made so far with their file names, and the objects whose file is open. *)
Record proc := mkP { reg : registry; objs : list (Z * str); opened : list Z; closes : list Z }.
Definition name_of (h : Z) (p : proc) : str := match find (fun x => fst x =? h) (objs p) with Some (_, n) => n | None => [] end.
(** LDPFileBase.__init__ (103-129): the object is registered before the file is looked at; [ok]: _ready_file and
    _describe_file find data.  [h] is a new identity.  Simplification: open() itself succeeds. *)
Definition create (h : Z) (n : str) (ok : bool) (p : proc) : option exn * proc :=
  ((if ok then None else Some RuntimeError), mkP (add h n (reg p)) ((h, n) :: objs p) (sadd h (opened p)) (closes p)).
(** close (244-250); [closes] records each call that found the file open. *)
Definition close (h : Z) (p : proc) : option exn * proc :=
  let '(e, r) := remove h (name_of h p) (reg p) in
  (e, mkP r (objs p) (sdel h (opened p)) (if mem h (opened p) then h :: closes p else closes p)).
(** close_all (86-89), also run at exit; the set is gone through in an unknown order [l]. *)
Fixpoint close_all (l : list Z) (p : proc) : option exn * proc :=
  match l with
  | [] => (None, p)
  | h :: r => let '(e, p') := close h p in match e with Some x => (Some x, p') | None => close_all r p' end
  end.
(** A with block around [h]: the body [closes_it] or not, then __exit__ (131-135). *)
Definition with_block (h : Z) (closes_it : bool) (p : proc) : option exn * proc :=
  if closes_it then let '(e, p') := close h p in match e with Some x => (Some x, p') | None => close h p' end else close h p.

Inductive event := Create (h : Z) (n : str) (ok : bool) | Close (h : Z) | CloseAll (order : list Z).
Definition happens (e : event) (p : proc) : option exn * proc :=
  match e with Create h n ok => create h n ok p | Close h => close h p | CloseAll l => close_all l p end.
Definition start : proc := mkP (mkReg [] []) [] [] [].
Fixpoint run (l : list event) (p : proc) : list (option exn) * proc :=
  match l with [] => ([], p) | e :: r => let '(x, p') := happens e p in let '(xs, q) := run r p' in (x :: xs, q) end.
