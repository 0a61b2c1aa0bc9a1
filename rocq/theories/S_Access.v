(** What a user expects of the data cache. *)
From Coq Require Import List ZArith.
From Verif Require Import M_Py M_Access.
Import ListNotations.
Open Scope Z_scope.

(** the bytes a transfer has put into the file *)
Definition delivered (t : transfer) : list Z := concat (map snd (blocks t)).
Definition on_the_wire (t : transfer) : Z := fold_right Z.add 0 (map fst (blocks t)).
(** an attempt that the cache takes for a success *)
Definition taken (t : transfer) : Prop := (exists l, t = Ends l) /\ 3 <= on_the_wire t.
Definition usable (local : option (list Z * Z)) : Prop := exists d t, local = Some (d, t) /\ (3 <= length d)%nat.
Definition throws (t : transfer) : Prop := exists e l, t = Fails e l.
(** the transfer brings the whole file [want] if it ends without an error *)
Definition whole (want : list Z) (t : transfer) : Prop := forall l, t = Ends l -> delivered t = want.
(** the process may be killed in any of the states it goes through *)
Definition crash_state (s : option (list Z * Z)) (r : res unit * list (option (list Z * Z))) (s' : option (list Z * Z)) : Prop := s' = s \/ In s' (snd r).
