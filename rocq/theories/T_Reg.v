(** Property theorems (generated from P_RegT.v by tools/gen_theorems.py). *)
From Coq Require Import List ZArith Bool Lia Permutation.
From Verif Require Import M_Str M_Reg S_Reg P_Str P_Config P_RegT.
Import ListNotations.
Open Scope Z_scope.

(** After any history of opening (also of files that turn out not to be data), closing (also again) and close_all the
    handlers of the registry are exactly the objects whose file is open, each once, and each is listed under the name
    of its file and no other. *)
Theorem C44_handlers : forall l, possible l [] [] ->
  let p := snd (run l start) in
  lists_exactly (open_after l []) (reg p) /\ (forall h, In h (opened p) <-> In h (handlers (reg p))).
Proof. exact C44_handlers_proof. Qed.
Print Assumptions C44_handlers.

Theorem C44_filenames : forall l, possible l [] [] -> once l [] ->
  names_exactly (open_after l []) (reg (snd (run l start))) /\ Forall2 raised l (fst (run l start)).
Proof. exact C44_filenames_proof. Qed.
Print Assumptions C44_filenames.

(** close_all(), also at exit, closes every open object exactly once, in whatever order the set is gone through, and
    leaves none registered. *)
Theorem C44_close_all : forall l order, possible l [] [] -> Permutation order (map fst (open_after l [])) ->
  let p := snd (run l start) in let q := snd (close_all order p) in
  fst (close_all order p) = None /\ handlers (reg q) = [] /\ opened q = [] /\ closes q = rev order ++ closes p /\ size (reg q) = 0 /\
  (once l [] -> filenames (reg q) = []).
Proof. exact C44_close_all_proof. Qed.
Print Assumptions C44_close_all.

(** A second close() raises KeyError, and so does leaving a with block whose body has closed the file.  It also leaves
    the name in the registry: the registry then says a file is open that is not. *)
Theorem C44_second_close_refuted :
  (forall h n, let p := snd (run [Create h n true; Close h] start) in
     fst (close h p) = Some KeyError /\ contains n (reg (snd (close h p))) = true /\ opened (snd (close h p)) = [] /\ handlers (reg (snd (close h p))) = []) /\
  (forall h n, fst (with_block h true (snd (create h n true start))) = Some KeyError) /\
  (forall h n, fst (with_block h false (snd (create h n true start))) = None).
Proof. exact C44_second_close_refuted_proof. Qed.
Print Assumptions C44_second_close_refuted.

(** An object whose constructor fails stays registered, with its file open, until the end of the process. *)
Theorem C44_failed_open_refuted : forall h n, exists p, create h n false start = (Some RuntimeError, p) /\ handlers (reg p) = [h] /\ opened p = [h] /\ filenames (reg p) = [n].
Proof. exact C44_failed_open_refuted_proof. Qed.
Print Assumptions C44_failed_open_refuted.

(** A history: two objects of the same file and one of another, one closed, close_all. *)
Example C44_history_example : let l := [Create 1 [97] true; Create 2 [97] true; Create 3 [98] false; Close 1] in
  possible l [] [] /\ once l [] /\ reg (snd (run l start)) = mkReg [([97], [2]); ([98], [3])] [3; 2] /\
  Permutation [2; 3] (map fst (open_after l [])) /\ closes (snd (close_all [2; 3] (snd (run l start)))) = [3; 2; 1].
Proof. exact C44_history_example_proof. Qed.
